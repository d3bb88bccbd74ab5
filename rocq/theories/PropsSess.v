(** Properties C54 to C59: whole sessions, screens, raw WASM. *)
From Verif Require Import Base Zxlib Crypto Utils RuntimeArg Deploy DeployUI TxV1 TxV1UI Parser BaseFacts Spec SpecText SpecDeploy SpecTx SpecApp SpecSess Exec TextFacts Shows ReviewFacts Demo DeployCases WitDeploy TxShow TxReview WitTx DeploySafe App AppFacts AppHist AppClaims AppSign WitApp Screen WasmSafe SessFacts SessTx SessWasm SessReply WitSess.
Import S SD SX.

(** ** C54  Every item of an accepted transaction can be asked for *)
(** [screen_item] is tx_getItem of common/tx.c, [tx_getItem] the item function
    of the parser below it. *)
Theorem C54_deploys :
  forall pf x kl data v idx, hash32 (p_hash pf) -> bytes data -> zlen data < 65535 ->
  tx_parse pf x (0 :: data) = Ret (TDeploy v) -> 0 <= idx < getNumItems x (TDeploy v) ->
  exists it, tx_getItem pf x kl (0 :: data) (TDeploy v) idx = Ret it /\
    screen_item pf x kl (0 :: data) (TDeploy v) idx = ZItem it.
Proof. exact screen_deploy. Qed.
Print Assumptions C54_deploys.
Example C54_deploys_case : exists data v, enc_tx d_transfer = 0 :: data /\ bytes data /\ zlen data < 65535 /\
  tx_parse demo true (0 :: data) = Ret (TDeploy v) /\ 10 < getNumItems true (TDeploy v).
Proof.
  eexists _, _. split; [reflexivity|]. split; [apply bytesb_ok; vm_compute; reflexivity|]. split; [vm_compute; reflexivity|].
  split; [vm_compute; reflexivity | vm_compute; reflexivity].
Qed.

(** Missing for the full claim: items from the 129th on, which
    [C54_refuted] shows cannot be asked for. *)
Theorem C54_v1_partial :
  forall pf x kl data v idx, zlen data < 65535 ->
  tx_parse pf x (1 :: data) = Ret (TV1 v) -> 0 <= idx < getNumItems x (TV1 v) -> idx < 128 ->
  exists it, tx_getItem pf x kl (1 :: data) (TV1 v) idx = Ret it /\
    screen_item pf x kl (1 :: data) (TV1 v) idx = ZItem it.
Proof. exact screen_v1. Qed.
Print Assumptions C54_v1_partial.

Theorem C54_refuted :
  exists pf t v i it, hash32 (p_hash pf) /\ good_transaction (p_hash pf) t /\ tx_parse pf false (enc_v1 t) = Ret (TV1 v) /\
    0 <= i < getNumItems false (TV1 v) /\ tx_getItem pf false 40 (enc_v1 t) (TV1 v) i = Ret it /\
    screen_item pf false 40 (enc_v1 t) (TV1 v) i = ZNoData.
Proof. exact screen_refuted. Qed.
Print Assumptions C54_refuted.
(** No transaction has a reachable item between the 129th and the 256th. *)
Theorem C54_beyond :
  forall pf x kl data t idx, 128 <= idx < 256 -> screen_item pf x kl data t idx = ZNoData.
Proof. exact screen_big. Qed.
Print Assumptions C54_beyond.

(** ** C55  Handling raw WASM never leaves the buffer *)
(** [long_word data p n]: the four bytes at [p] are a number [n] above 100 or
    above what is left of the data.  [auction_word data p]: they are the length of
    the string that is the value of an argument called "auction".  [w] is false
    only after a TransactionV1 was submitted. *)
Theorem C55_parse_partial :
  forall pf x w data u, hash32 (p_hash pf) -> bytes data -> zlen data < 65536 ->
  parser_parse_wasm pf x w data = Undef u -> exists p n, long_word data p n /\ (auction_word data p \/ w = false).
Proof. exact wasm_parse_undef. Qed.
Print Assumptions C55_parse_partial.
Theorem C55_check_partial :
  forall pf x w data h, hash32 (p_hash pf) -> bytes data -> zlen data < 65536 ->
  parser_parse_wasm pf x w data = Ret h -> forall y o,
  (exists u, fst (parser_validate_wasm h (ctx_of pf x y 40 data (zlen data)) o) = Undef u) <-> 65504 <= header_length_deploy h.
Proof. exact wasm_validate_undef. Qed.
Print Assumptions C55_check_partial.
Theorem C55_items_partial :
  forall pf x w data h, hash32 (p_hash pf) -> bytes data -> zlen data < 65536 ->
  parser_parse_wasm pf x w data = Ret h -> header_length_deploy h < 65504 ->
  forall y idx o u, fst (parser_getWasmItem h idx (ctx_of pf x y 40 data (zlen data)) o) <> Undef u.
Proof. exact wasm_items_defined. Qed.
Print Assumptions C55_items_partial.
Example C55_case : exists h, bytes wasm_bytes /\ zlen wasm_bytes < 65536 /\ parser_parse_wasm demo true true wasm_bytes = Ret h /\
  header_length_deploy h < 65504.
Proof. exact wasm_items_case. Qed.
Theorem C55_parse_refuted :
  exists pf d, hash32 (p_hash pf) /\ good_deploy (p_hash pf) d /\ zlen (enc_deploy d) < 65536 /\
    forall x, parser_parse_wasm pf x true (enc_deploy d) = Undef OobRead.
Proof. exact wasm_auction_refuted. Qed.
Print Assumptions C55_parse_refuted.
Theorem C55_check_refuted :
  exists pf data, hash32 (p_hash pf) /\ bytes data /\ zlen data = 137 /\
    forall x, exists h, parser_parse_wasm pf x true data = Ret h /\ header_length_deploy h = 65505 /\
      fst (parser_validate_wasm h (ctx_of pf x true 40 data (zlen data)) 0) = Undef OobRead.
Proof. exact wasm_header_refuted. Qed.
Print Assumptions C55_check_refuted.

(** ** C56  A correctly sent transaction is reviewed and can be signed *)
(** [sends i p cs c] are the commands of a session: the path [p], the chunks
    [cs], the last chunk [c]. *)
Theorem C56_deploys :
  forall d s tr p cs c dp lines, device_ok d -> reach d s tr -> pending s = None ->
  20 <= zlen p -> SA.casper_path (SS.words5 p) ->
  good_deploy (p_hash (plat d)) dp -> expert_ok (expert_mode s) (p_time (plat d)) (d_header dp) ->
  SD.review (p_hash (plat d)) (expert_mode s) dp = Some lines ->
  List.concat cs ++ c = enc_tx dp -> zlen (enc_tx dp) <= flash_size d ->
  exists s' st tr' r s'',
    run d s (sends 2 p cs c) = Ret (s', tr' ++ [(Apdu (SS.cmd 2 2 c) true, st, NoReply)]) /\
    Forall (fun x => snd x = Status [] SA.ok) tr' /\
    pending s' = Some r /\ review_count s' r = zlen lines /\
    (forall i l, nth_error lines i = Some l -> forall kl,
       exists it, review_item d s' r kl (Z.of_nat i) = Ret it /\ shows (p_hash (plat d)) (p_time (plat d)) l it) /\
    step d s' (Approve true) = Ret (s'', Signed (SS.words5 p) (d_hash dp)) /\ pending s'' = None.
Proof. exact deploy_signed. Qed.
Print Assumptions C56_deploys.
Example C56_deploys_case :
  exists d s tr p cs c dp lines, device_ok d /\ reach d s tr /\ tr <> [] /\ pending s = None /\ 20 <= zlen p /\ SA.casper_path (SS.words5 p) /\
    good_deploy (p_hash (plat d)) dp /\ expert_ok (expert_mode s) (p_time (plat d)) (d_header dp) /\
    SD.review (p_hash (plat d)) (expert_mode s) dp = Some lines /\ List.concat cs ++ c = enc_tx dp /\ zlen (enc_tx dp) <= flash_size d.
Proof. exact deploy_session_case. Qed.

Theorem C56_v1 :
  forall d s tr p cs c t lines, device_ok d -> reach d s tr -> pending s = None ->
  20 <= zlen p -> SA.casper_path (SS.words5 p) ->
  good_transaction (p_hash (plat d)) t -> xexpert_ok (expert_mode s) (p_time (plat d)) (x_payload t) ->
  SX.review (p_hash (plat d)) (expert_mode s) t = Some lines -> before_args t < 256 ->
  List.concat cs ++ c = enc_v1 t -> zlen (enc_v1 t) <= flash_size d ->
  exists s' st tr' r s'',
    run d s (sends 2 p cs c) = Ret (s', tr' ++ [(Apdu (SS.cmd 2 2 c) true, st, NoReply)]) /\
    Forall (fun x => snd x = Status [] SA.ok) tr' /\
    pending s' = Some r /\ review_count s' r = zlen lines /\
    (forall i l, nth_error lines i = Some l -> forall kl,
       exists it, review_item d s' r kl (Z.of_nat i) = Ret it /\ xshows (p_hash (plat d)) (p_time (plat d)) l it) /\
    step d s' (Approve true) = Ret (s'', Signed (SS.words5 p) (x_hash t)) /\ pending s'' = None.
Proof. exact transaction_signed. Qed.
Print Assumptions C56_v1.
Example C56_v1_case :
  exists d s tr p cs c t lines, device_ok d /\ reach d s tr /\ pending s = None /\ 20 <= zlen p /\ SA.casper_path (SS.words5 p) /\
    good_transaction (p_hash (plat d)) t /\ xexpert_ok (expert_mode s) (p_time (plat d)) (x_payload t) /\
    SX.review (p_hash (plat d)) (expert_mode s) t = Some lines /\ before_args t < 256 /\ lines <> [] /\
    List.concat cs ++ c = enc_v1 t /\ zlen (enc_v1 t) <= flash_size d.
Proof. exact v1_session_case. Qed.

(** Any byte string the parser accepts: the review is that of these bytes, and
    the 32 bytes signed are the hash inside them, the one displayed first. *)
Theorem C56_accepted :
  forall d s tr p cs c t, device_ok d -> reach d s tr -> pending s = None ->
  20 <= zlen p -> SA.casper_path (SS.words5 p) -> bytes (List.concat cs ++ c) -> zlen (List.concat cs ++ c) <= flash_size d ->
  tx_parse (plat d) (expert_mode s) (List.concat cs ++ c) = Ret t ->
  exists s' st tr' h s'',
    run d s (sends 2 p cs c) = Ret (s', tr' ++ [(Apdu (SS.cmd 2 2 c) true, st, NoReply)]) /\
    Forall (fun x => snd x = Status [] SA.ok) tr' /\
    pending s' = Some (RTx t) /\ review_count s' (RTx t) = getNumItems (expert_mode s) t /\
    (forall kl i, review_item d s' (RTx t) kl i = tx_getItem (plat d) (expert_mode s) kl (List.concat cs ++ c) t i) /\
    step d s' (Approve true) = Ret (s'', Signed (SS.words5 p) h) /\ pending s'' = None /\
    hash_in (p_hash (plat d)) (List.concat cs ++ c) h /\
    (0 < getNumItems (expert_mode s) t -> forall kl, review_item d s' (RTx t) kl 0 = Ret (mkItem (text "Txn hash") (VPaged (ST.cep57 (p_hash (plat d) h) h)))).
Proof. exact tx_signed. Qed.
Print Assumptions C56_accepted.

(** ** C57  What a complete session signs does not depend on what happened before *)
(** [same_run]: the same events give the same answers, the same reviews and the
    same signatures.  [only i es]: signing commands among [es] are of kind [i].
    Missing for the full claim: messages and raw WASM after a TransactionV1 was
    submitted; the two refutations show that they do differ then. *)
Theorem C57_sessions_partial :
  forall d s1 tr1 s2 tr2 i p es, device_ok d -> reach d s1 tr1 -> reach d s2 tr2 ->
  pending s1 = None -> pending s2 = None -> expert_mode s1 = expert_mode s2 ->
  i = 2 \/ (i = 3 \/ i = 4) /\ deploys_only tr1 /\ deploys_only tr2 ->
  20 <= zlen p -> SA.casper_path (SS.words5 p) -> SessFacts.only i es ->
  same_run d (run d s1 (Apdu (SS.cmd i 0 p) true :: es)) (run d s2 (Apdu (SS.cmd i 0 p) true :: es)).
Proof. exact sessions_alike. Qed.
Print Assumptions C57_sessions_partial.
Example C57_case : exists s1 tr1 s2 tr2, reach dev s1 tr1 /\ reach dev s2 tr2 /\ pending s1 = None /\ pending s2 = None /\
  expert_mode s1 = expert_mode s2 /\ deploys_only tr1 /\ deploys_only tr2 /\ tr1 <> tr2.
Proof. exact alike_case. Qed.
Theorem C57_message_refuted :
  exists d s1 tr1 s2 tr2 p cs c path m1 m2, device_ok d /\ reach d s1 tr1 /\ reach d s2 tr2 /\ pending s1 = None /\ pending s2 = None /\
    expert_mode s1 = expert_mode s2 /\ 20 <= zlen p /\ SA.casper_path (SS.words5 p) /\
    signature d s1 (sends 3 p cs c) = Some (path, m1) /\ signature d s2 (sends 3 p cs c) = Some (path, m2) /\ m1 <> m2.
Proof. exact message_depends. Qed.
Print Assumptions C57_message_refuted.
Theorem C57_wasm_refuted :
  exists d s1 tr1 s2 tr2 p cs c path m1 m2, device_ok d /\ reach d s1 tr1 /\ reach d s2 tr2 /\ pending s1 = None /\ pending s2 = None /\
    expert_mode s1 = expert_mode s2 /\ 20 <= zlen p /\ SA.casper_path (SS.words5 p) /\
    signature d s1 (sends 4 p cs c) = Some (path, m1) /\ signature d s2 (sends 4 p cs c) = Some (path, m2) /\ m1 <> m2.
Proof. exact wasm_depends. Qed.
Print Assumptions C57_wasm_refuted.

(** ** C58  Every answer fits the APDU buffer *)
Theorem C58_answers :
  forall d s tr, device_ok d -> keys_ok d -> zlen (version_bytes d) <= 258 -> reach d s tr ->
  zlen (answer s) = 101 /\
  Forall (fun n => match snd n with Status data sw => zlen data + 2 <= 260 | _ => True end) tr.
Proof. exact answers_fit. Qed.
Print Assumptions C58_answers.
Example C58_case : exists s tr1 st, device_ok dev /\ keys_ok dev /\ zlen (version_bytes dev) <= 258 /\
  reach dev s (tr1 ++ [(Approve true, st, Signed (casper 0) hello)]).
Proof.
  destruct message_history as (s & tr1 & st & D & R & _). exists s, tr1, st. split; [exact D|]. split; [exact dev_keys|].
  split; [vm_compute; discriminate | exact R].
Qed.

(** ** C59  A raw-WASM deploy too large for the device is reviewed by its hashes and can be signed *)
(** Missing for the full claim: deploys whose code fits but not what follows it
    ([C59_refuted]), and deploys whose part before the code leaves less than one
    chunk of room. *)
Theorem C59_large_code_partial :
  forall d s tr p cs c dp code args, device_ok d -> reach d s tr -> deploys_only tr -> pending s = None ->
  20 <= zlen p -> SA.casper_path (SS.words5 p) ->
  good_header (d_header dp) -> d_hash dp = p_hash (plat d) (enc_header (d_header dp)) -> bytes (enc_deploy dp) ->
  d_session dp = Module code args -> zlen code < 2 ^ 32 - 65536 ->
  flash_size d < zlen (SS.before_code dp code) + zlen code -> zlen (SS.before_code dp code) + 255 <= flash_size d ->
  List.concat cs ++ c = enc_deploy dp -> Forall (fun x => zlen x <= 255) (cs ++ [c]) ->
  exists s' st tr' s'',
    run d s (sends 4 p cs c) = Ret (s', tr' ++ [(Apdu (SS.cmd 4 2 c) true, st, NoReply)]) /\
    Forall (fun x => snd x = Status [] SA.ok) tr' /\
    pending s' = Some RWasm /\ review_count s' RWasm = 2 /\
    (forall kl, review_item d s' RWasm kl 0 = Ret (mkItem (text "DeployHash") (VPaged (ST.hex_lower (d_hash dp)))) /\
                review_item d s' RWasm kl 1 = Ret (mkItem (text "BodyHash") (VPaged (ST.hex_lower (h_bodyhash (d_header dp)))))) /\
    step d s' (Approve true) = Ret (s'', Signed (SS.words5 p) (d_hash dp)) /\ pending s'' = None.
Proof. exact large_signed. Qed.
Print Assumptions C59_large_code_partial.
Example C59_case :
  exists d s tr p cs c dp code args, device_ok d /\ reach d s tr /\ deploys_only tr /\ pending s = None /\ 20 <= zlen p /\ SA.casper_path (SS.words5 p) /\
    good_header (d_header dp) /\ d_hash dp = p_hash (plat d) (enc_header (d_header dp)) /\ bytes (enc_deploy dp) /\
    d_session dp = Module code args /\ zlen code < 2 ^ 32 - 65536 /\
    flash_size d < zlen (SS.before_code dp code) + zlen code /\ zlen (SS.before_code dp code) + 255 <= flash_size d /\
    List.concat cs ++ c = enc_deploy dp /\ Forall (fun x => zlen x <= 255) (cs ++ [c]).
Proof. exact big_code_case. Qed.
Theorem C59_refuted :
  exists d dp code args p cs c s tr bs st data sw, device_ok d /\ good_deploy (p_hash (plat d)) dp /\ d_session dp = Module code args /\
    flash_size d < zlen (enc_deploy dp) /\ 20 <= zlen p /\ SA.casper_path (SS.words5 p) /\
    List.concat cs ++ c = enc_deploy dp /\ Forall (fun x => zlen x <= 255) (cs ++ [c]) /\
    run d (boot d) (sends 4 p cs c) = Ret (s, tr ++ [(Apdu bs true, st, Status data sw)]) /\ SA.last_chunk bs = true /\ sw <> SA.ok /\ pending s = None.
Proof. exact large_refused. Qed.
Print Assumptions C59_refuted.
