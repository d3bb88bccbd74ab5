(** Properties C61 to C67. *)
From Verif Require Import Base Zxlib Crypto Utils RuntimeArg Deploy DeployUI TxV1 TxV1UI Parser BaseFacts Spec SpecText SpecDeploy SpecTx SpecLayout SpecAppv SpecApp SpecSess Exec ArgsFacts ReviewFacts Demo TxShow TxReview App AppFacts AppHist AppClaims AppSign WitApp SessFacts SessTx MoreSign WitSess SessMore SizeFacts AppvFacts WitRest.
Import S.

(** ** C61  A correctly sent message is reviewed and can be signed *)
(** [message_text rest] is the message prefix followed by [rest].  Missing for
    the full claim: the signature when the last transaction submitted was a
    TransactionV1, see [C61_signed_refuted]. *)
Theorem C61_message_partial :
  forall d s tr p cs c rest, device_ok d -> reach d s tr -> pending s = None ->
  20 <= zlen p -> SA.casper_path (SS.words5 p) ->
  List.concat cs ++ c = message_text rest -> zlen (message_text rest) <= flash_size d ->
  exists s' st tr',
    run d s (sends 3 p cs c) = Ret (s', tr' ++ [(Apdu (SS.cmd 3 2 c) true, st, NoReply)]) /\
    Forall (fun x => snd x = Status [] SA.ok) tr' /\
    pending s' = Some RMsg /\ review_count s' RMsg = 1 /\
    (forall kl, review_item d s' RMsg kl 0 = Ret (mkItem (text "Msg hash") (VPaged (ST.hex_lower (p_hash (plat d) (message_text rest)))))) /\
    (deploys_only tr -> exists s'', step d s' (Approve true) = Ret (s'', Signed (SS.words5 p) (message_text rest)) /\ pending s'' = None).
Proof. exact message_shown. Qed.
Print Assumptions C61_message_partial.
Example C61_case :
  exists d s tr p cs c rest, device_ok d /\ reach d s tr /\ tr <> [] /\ pending s = None /\ 20 <= zlen p /\ SA.casper_path (SS.words5 p) /\
    List.concat cs ++ c = message_text rest /\ zlen (message_text rest) <= flash_size d /\ deploys_only tr /\ rest <> [].
Proof. exact message_session_case. Qed.
Theorem C61_signed_refuted :
  exists d s tr p c path m, device_ok d /\ reach d s tr /\ pending s = None /\ 20 <= zlen p /\ SA.casper_path (SS.words5 p) /\
    (exists rest, c = message_text rest) /\ zlen c <= flash_size d /\
    signature d s (sends 3 p [] c) = Some (path, m) /\ m <> c.
Proof. exact message_replaced. Qed.
Print Assumptions C61_signed_refuted.

(** ** C62  An address request gives the address of the requested path *)
(** [kept]: the data collected and the flags of the session are as before.
    [k] is the byte that asks for confirmation. *)
Theorem C62_address :
  forall d s p k key, device_ok d -> keys_ok d -> pending s = None -> 20 <= zlen p -> SA.casper_path (SS.words5 p) ->
  pubkey d (SS.words5 p) = Some key ->
  let reply := Status (key ++ ST.key_text (p_hash (plat d)) 2 key) SA.ok in
  exists s', kept s s' /\
    if k =? 0 then step d s (Apdu (SS.cmd 1 k p) true) = Ret (s', reply) /\ pending s' = None
    else step d s (Apdu (SS.cmd 1 k p) true) = Ret (s', NoReply) /\ pending s' = Some RAddr /\
      review_count s' RAddr = (if expert_mode s then 2 else 1) /\
      (forall kl, review_item d s' RAddr kl 0 = Ret (mkItem (text "Address") (VPaged (ST.key_text (p_hash (plat d)) 2 key)))) /\
      (expert_mode s = true -> forall kl, review_item d s' RAddr kl 1 = Ret (mkItem (text "Path") (VPaged (bip32_text d (SS.words5 p))))) /\
      (forall ok, exists s'', step d s' (Approve ok) = Ret (s'', reply) /\ pending s'' = None /\ kept s s'') /\
      (exists s'', step d s' Reject = Ret (s'', Status [] SA.not_allowed) /\ pending s'' = None /\ kept s s'').
Proof. exact address_given. Qed.
Print Assumptions C62_address.
Example C62_case : exists d s tr p key, device_ok d /\ keys_ok d /\ reach d s tr /\ tr <> [] /\ pending s = None /\ 20 <= zlen p /\ SA.casper_path (SS.words5 p) /\
  pubkey d (SS.words5 p) = Some key.
Proof. exact address_request_case. Qed.

(** ** C63  The device never gets stuck *)
Theorem C63_deploys :
  forall d s tr p cs c dp lines, device_ok d -> reach d s tr ->
  20 <= zlen p -> SA.casper_path (SS.words5 p) ->
  SD.good_deploy (p_hash (plat d)) dp -> expert_ok (expert_mode s) (p_time (plat d)) (SD.d_header dp) ->
  SD.review (p_hash (plat d)) (expert_mode s) dp = Some lines ->
  List.concat cs ++ c = SD.enc_tx dp -> zlen (SD.enc_tx dp) <= flash_size d ->
  exists s' tr' r s'', run d s (Reject :: sends 2 p cs c) = Ret (s', tr') /\
    pending s' = Some r /\ review_count s' r = zlen lines /\
    (forall i l, nth_error lines i = Some l -> forall kl,
       exists it, review_item d s' r kl (Z.of_nat i) = Ret it /\ Shows.shows (p_hash (plat d)) (p_time (plat d)) l it) /\
    step d s' (Approve true) = Ret (s'', Signed (SS.words5 p) (SD.d_hash dp)) /\ pending s'' = None.
Proof. exact never_stuck_deploy. Qed.
Print Assumptions C63_deploys.
Theorem C63_v1 :
  forall d s tr p cs c t lines, device_ok d -> reach d s tr ->
  20 <= zlen p -> SA.casper_path (SS.words5 p) ->
  SX.good_transaction (p_hash (plat d)) t -> xexpert_ok (expert_mode s) (p_time (plat d)) (SX.x_payload t) ->
  SX.review (p_hash (plat d)) (expert_mode s) t = Some lines -> SX.before_args t < 256 ->
  List.concat cs ++ c = SX.enc_v1 t -> zlen (SX.enc_v1 t) <= flash_size d ->
  exists s' tr' r s'', run d s (Reject :: sends 2 p cs c) = Ret (s', tr') /\
    pending s' = Some r /\ review_count s' r = zlen lines /\
    (forall i l, nth_error lines i = Some l -> forall kl,
       exists it, review_item d s' r kl (Z.of_nat i) = Ret it /\ xshows (p_hash (plat d)) (p_time (plat d)) l it) /\
    step d s' (Approve true) = Ret (s'', Signed (SS.words5 p) (SX.x_hash t)) /\ pending s'' = None.
Proof. exact never_stuck_v1. Qed.
Print Assumptions C63_v1.
(** Any byte string the parser accepts. *)
Theorem C63_accepted :
  forall d s tr p cs c t, device_ok d -> reach d s tr ->
  20 <= zlen p -> SA.casper_path (SS.words5 p) -> bytes (List.concat cs ++ c) -> zlen (List.concat cs ++ c) <= flash_size d ->
  tx_parse (plat d) (expert_mode s) (List.concat cs ++ c) = Ret t ->
  exists s' tr' h s'',
    run d s (Reject :: sends 2 p cs c) = Ret (s', tr') /\
    pending s' = Some (RTx t) /\ review_count s' (RTx t) = getNumItems (expert_mode s) t /\
    (forall kl i, review_item d s' (RTx t) kl i = tx_getItem (plat d) (expert_mode s) kl (List.concat cs ++ c) t i) /\
    step d s' (Approve true) = Ret (s'', Signed (SS.words5 p) h) /\ pending s'' = None /\ hash_in (p_hash (plat d)) (List.concat cs ++ c) h.
Proof. exact never_stuck. Qed.
Print Assumptions C63_accepted.
Example C63_case : exists d s tr p cs c t, device_ok d /\ reach d s tr /\ pending s <> None /\
  20 <= zlen p /\ SA.casper_path (SS.words5 p) /\ bytes (List.concat cs ++ c) /\ zlen (List.concat cs ++ c) <= flash_size d /\
  tx_parse (plat d) (expert_mode s) (List.concat cs ++ c) = Ret t.
Proof. exact stuck_case. Qed.

(** ** C64  The sizes of the buffers do not matter *)
(** [roomy n tr]: no chunk taken makes the data of its session longer than [n].
    [same_point], [same_view]: the same event, reply, pending review and items. *)
Theorem C64_sizes :
  forall d r f n es s1 tr1, device_ok d -> device_ok (resize d r f) -> n <= flash_size d -> n <= f ->
  run d (boot d) es = Ret (s1, tr1) -> roomy n tr1 ->
  exists s2 tr2, run (resize d r f) (boot (resize d r f)) es = Ret (s2, tr2) /\
    Forall2 (same_point d r f) tr1 tr2 /\ same_view d r f s1 s2.
Proof. exact sizes_alike. Qed.
Print Assumptions C64_sizes.
Example C64_case : exists d r f n es s tr, device_ok d /\ device_ok (resize d r f) /\ n <= flash_size d /\ n <= f /\
  flash_size d <> f /\ ram_size d <> r /\ run d (boot d) es = Ret (s, tr) /\ roomy n tr /\ sigs tr = 2.
Proof. exact sizes_case. Qed.

(** ** C65  A locked device gives out no address and no signature *)
Theorem C65_locked :
  forall d s bs,
  match pending s with
  | Some _ => step d s (Apdu bs false) = Ret (s, NoReply)
  | None => exists data sw, step d s (Apdu bs false) = Ret (s, Status data sw) /\
      (data = [] /\ In sw [SA.wrong_class; SA.wrong_size; SA.wrong_ins; SA.not_allowed] \/
       SA.command bs = true /\ SA.ins bs = 0 /\ data = version_bytes d /\ sw = SA.ok)
  end.
Proof. exact locked. Qed.
Print Assumptions C65_locked.

(** ** C66  Only documented status words are returned *)
(** [documented] is the list of docs/APDUSPEC.md; a chunk without session is
    answered with another word. *)
Theorem C66_documented_refuted :
  exists d es s tr data sw e st, device_ok d /\ Forall event_ok es /\ run d (boot d) es = Ret (s, tr) /\
    In (e, st, Status data sw) tr /\ ~ In sw documented.
Proof. exact undocumented. Qed.
Print Assumptions C66_documented_refuted.
(** The words of all histories.  Missing for the full claim: 6700, 6984, 6987,
    6B00 and 6F01 are not documented. *)
Theorem C66_words_partial :
  forall d s es s' tr, run d s es = Ret (s', tr) ->
  Forall (fun x => match snd x with Status _ sw => In sw [0x6400; 0x6700; 0x6983; 0x6984; 0x6986; 0x6987; 0x6B00; 0x6D00; 0x6E00; 0x6F01; 0x9000] | _ => True end) tr.
Proof. exact words_closed. Qed.
Print Assumptions C66_words_partial.

(** ** C67  The number of approvals shown is the number of approvals *)
(** Any bytes that fit the buffer of the device and are accepted as a
    TransactionV1 in expert mode (with less than 256 items): the last item
    shows the number [n] before the approvals, and [n] approvals follow.
    Missing for the full claim: the signature of the last one may lie outside
    ([C67_cut_refuted]). *)
Theorem C67_v1_partial :
  forall pf data v, hash32 (p_hash pf) -> bytes data -> zlen data < 16384 ->
  tx_parse pf true (1 :: data) = Ret (TV1 v) -> 9 <= getNumItems true (TV1 v) ->
  exists top n s, SL.tbl_at data 0 top /\ SL.here data (SL.place 0 top 2) (le 4 n) /\
    SV.approvals_at data n (SL.place 0 top 2 + 4) (SL.fin 0 top) /\ ST.decimal n s /\
    forall kl, tx_getItem pf true kl (1 :: data) (TV1 v) (getNumItems true (TV1 v) - 1) = Ret (mkItem (text "Approvals #") (VDirect s)).
Proof. exact approvals_counted. Qed.
Print Assumptions C67_v1_partial.
Example C67_case : exists v, hash32 (p_hash demo) /\ bytes approved /\ zlen approved < 16384 /\ tx_parse demo true (1 :: approved) = Ret (TV1 v) /\
  9 <= getNumItems true (TV1 v) /\ zlen (SX.x_approvals t_approved) = 2.
Proof. exact approvals_case. Qed.
(** Deploys with a specified review.  Missing for the full claim: arbitrary
    bytes, for which it is false ([C67_deploy_refuted]). *)
Theorem C67_deploys_partial :
  forall pf d lines, hash32 (p_hash pf) -> SD.good_deploy (p_hash pf) d ->
  SD.review (p_hash pf) true d = Some lines -> expert_ok true (p_time pf) (SD.d_header d) ->
  exists v s, tx_parse pf true (SD.enc_tx d) = Ret v /\ ST.decimal (S.len (SD.d_approvals d)) s /\
    forall kl, tx_getItem pf true kl (SD.enc_tx d) v (getNumItems true v - 1) = Ret (mkItem (text "Approvals #") (VPaged s)).
Proof. exact deploy_approvals. Qed.
Print Assumptions C67_deploys_partial.
Example C67_deploys_case : exists lines, SD.good_deploy (p_hash demo) d_signed /\ SD.review (p_hash demo) true d_signed = Some lines /\
  expert_ok true (p_time demo) (SD.d_header d_signed) /\ zlen (SD.d_approvals d_signed) = 2.
Proof. exact deploy_approvals_case. Qed.
(** Seven approvals shown, and the bytes end after the count. *)
Theorem C67_deploy_refuted :
  exists pf pre v, hash32 (p_hash pf) /\ bytes (pre ++ le 4 7) /\ zlen (pre ++ le 4 7) <= 16384 /\
    tx_parse pf true (pre ++ le 4 7) = Ret v /\
    tx_getItem pf true 40 (pre ++ le 4 7) v (getNumItems true v - 1) = Ret (mkItem (text "Approvals #") (VPaged (text "7"))).
Proof. exact deploy_count_refuted. Qed.
Print Assumptions C67_deploy_refuted.
(** Two approvals shown, and the signature of the second one cut off. *)
Theorem C67_cut_refuted :
  exists pf t cut v, hash32 (p_hash pf) /\ SX.good_transaction (p_hash pf) t /\ zlen (SX.x_approvals t) = 2 /\
    (exists last, SX.enc_v1 t = cut ++ last /\ zlen last = 64) /\
    tx_parse pf true cut = Ret v /\
    tx_getItem pf true 40 cut v (getNumItems true v - 1) = Ret (mkItem (text "Approvals #") (VDirect (text "2"))).
Proof. exact v1_count_refuted. Qed.
Print Assumptions C67_cut_refuted.
