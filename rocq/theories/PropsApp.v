(** Properties C25-C27 and C32-C38: histories of commands and button presses.
    [reach d s tr]: from power-on, the history [tr] (events with the state
    before them and the replies) leads to state [s]. *)
From Verif Require Import Base Zxlib Crypto Utils RuntimeArg Deploy DeployUI TxV1 TxV1UI Parser BaseFacts Spec SpecText SpecDeploy Exec TextFacts Demo SpecApp App AppFacts AppHist AppClaims AppSign WitApp.

(** ** C25  Message signing shows and signs the same message *)
(** Missing for the full claim: histories in which a TransactionV1 was
    submitted before (even one that was refused). *)
Theorem C25_message_partial :
  forall d s tr1 e st p pre tr2, device_ok d ->
  reach d s (tr1 ++ (e, st, Signed p pre) :: tr2) -> pending st = Some RMsg -> deploys_only tr1 ->
  pre = tx_data (bufs st) /\ (no_wasm_chunks tr1 -> pre = sent tr1) /\
  (exists rest, pre = S.text "Casper Message:" ++ [10] ++ rest) /\
  forall kl, review_item d st RMsg kl 0 = Ret (mkItem (S.text "Msg hash") (VPaged (ST.hex_lower (p_hash (plat d) pre)))).
Proof. exact message_signed. Qed.
Print Assumptions C25_message_partial.

(** In general what is signed is not the message. *)
Theorem C25_message_refuted :
  exists d s tr1 st p pre, device_ok d /\ reach d s (tr1 ++ [(Approve true, st, Signed p pre)]) /\
    pending st = Some RMsg /\ pre <> tx_data (bufs st) /\
    forall rest, pre <> S.text "Casper Message:" ++ [10] ++ rest.
Proof. exact message_refuted. Qed.
Print Assumptions C25_message_refuted.

Example C25_case : exists s tr1 st, device_ok dev /\
  reach dev s (tr1 ++ [(Approve true, st, Signed (casper 0) hello)]) /\ pending st = Some RMsg /\ deploys_only tr1 /\ no_wasm_chunks tr1.
Proof. exact message_history. Qed.

(** ** C26  Only prefixed messages can be signed as messages *)
Theorem C26_review_prefix_partial :
  forall d s tr, device_ok d -> reach d s tr -> pending s = Some RMsg ->
  exists rest, tx_data (bufs s) = S.text "Casper Message:" ++ [10] ++ rest.
Proof. exact message_prefix. Qed.
Print Assumptions C26_review_prefix_partial.

(** Yet the signature can be one for any 32 bytes, the hash of a transaction
    in particular: for every such [h] there is a history whose only review is
    that of a message containing [h], and whose approval signs [h] alone. *)
Theorem C26_signature_refuted :
  forall h, zlen h = 32 -> bytes h ->
  exists d s tr1 st p, device_ok d /\ reach d s (tr1 ++ [(Approve true, st, Signed p h)]) /\
    pending st = Some RMsg /\ tx_data (bufs st) = prefix ++ repeat 46 11 ++ h /\ SA.casper_path p.
Proof. exact message_forgery. Qed.
Print Assumptions C26_signature_refuted.

Example C26_case : exists s tr, device_ok dev /\ reach dev s tr /\ pending s = Some RMsg.
Proof.
  destruct message_history as (s & tr1 & st & D & R & P & _). destruct (reach_at _ _ _ _ _ _ _ R) as (R1 & _).
  exists st, tr1. auto.
Qed.

(** ** C27  Raw WASM deploys are bound to the shown hashes *)
(** Missing for the full claim: histories that mix in other signing commands
    or refused initial chunks; and the body hash on display is inside the
    hashed header only when that header is long enough to contain it. *)
Theorem C27_wasm_partial :
  forall d s tr1 e st p pre tr2, device_ok d ->
  reach d s (tr1 ++ (e, st, Signed p pre) :: tr2) -> pending st = Some RWasm -> wasm_only tr1 ->
  exists hdr rest, tx_data (bufs st) = hdr ++ pre ++ rest /\ zlen pre = 32 /\ p_hash (plat d) hdr = pre /\
    (forall kl, review_item d st RWasm kl 0 = Ret (mkItem (S.text "DeployHash") (VPaged (ST.hex_lower pre)))) /\
    (forall kl it, review_item d st RWasm kl 1 = Ret it ->
       exists alg key f24 bh post, tx_data (bufs st) = [alg] ++ key ++ f24 ++ bh ++ post /\
         zlen key = (if alg =? 2 then 33 else 32) /\ zlen f24 = 24 /\ zlen bh = 32 /\
         it = mkItem (S.text "BodyHash") (VPaged (ST.hex_lower bh)) /\
         (zlen ([alg] ++ key ++ f24 ++ bh) <= zlen hdr -> exists more, hdr = [alg] ++ key ++ f24 ++ bh ++ more)).
Proof. exact wasm_signed. Qed.
Print Assumptions C27_wasm_partial.

(** Any 32 bytes can be signed through the review of another deploy. *)
Theorem C27_wasm_refuted :
  forall h, zlen h = 32 -> bytes h ->
  exists d s tr1 st p shown, device_ok d /\ reach d s (tr1 ++ [(Approve true, st, Signed p h)]) /\
    pending st = Some RWasm /\ SA.casper_path p /\
    review_item d st RWasm 40 0 = Ret (mkItem (S.text "DeployHash") (VPaged (ST.hex_lower shown))) /\
    shown = demo_hash wasm_header.
Proof. exact wasm_forgery. Qed.
Print Assumptions C27_wasm_refuted.
Theorem C27_shown_hash_refuted :
  exists d s tr1 st p pre shown, device_ok d /\ reach d s (tr1 ++ [(Approve true, st, Signed p pre)]) /\
    pending st = Some RWasm /\
    review_item d st RWasm 40 0 = Ret (mkItem (S.text "DeployHash") (VPaged (ST.hex_lower shown))) /\ shown <> pre.
Proof. exact wasm_refuted. Qed.
Print Assumptions C27_shown_hash_refuted.

Example C27_case : exists s tr1 st pre, device_ok dev /\
  reach dev s (tr1 ++ [(Approve true, st, Signed (casper 0) pre)]) /\ pending st = Some RWasm /\ wasm_only tr1.
Proof. exact wasm_history. Qed.

(** ** C32  No signature without approval *)
Theorem C32_signed_after_review :
  forall d s tr1 e st p pre tr2, device_ok d ->
  reach d s (tr1 ++ (e, st, Signed p pre) :: tr2) ->
  e = Approve true /\
  exists r tr0 bs st0 mid,
    tr1 = tr0 ++ (Apdu bs true, st0, NoReply) :: mid /\
    SA.last_chunk bs = true /\ pending st0 = None /\ pending st = Some r /\
    accepted_as d bs st r /\ Forall (ignored st) mid.
Proof. exact signed_after_review. Qed.
Print Assumptions C32_signed_after_review.

(** Between two signatures another review was opened. *)
Theorem C32_one_signature :
  forall d s tr1 e1 st1 p1 pre1 mid e2 st2 p2 pre2 tr2, device_ok d ->
  reach d s (tr1 ++ (e1, st1, Signed p1 pre1) :: mid ++ (e2, st2, Signed p2 pre2) :: tr2) ->
  Exists opens mid.
Proof. exact one_signature. Qed.
Print Assumptions C32_one_signature.

Example C32_case : exists s tr, reach dev s tr /\ sigs tr = 2 /\ Exists (fun x => snd x = Status [] SA.no_session) tr.
Proof. exact two_history. Qed.

(** ** C33  The reviewed bytes are the bytes sent *)
(** Missing for the full claim: histories with chunks of raw-WASM deploys. *)
Theorem C33_reviewed_partial :
  forall d s tr, device_ok d -> reach d s tr -> no_wasm_chunks tr ->
  match pending s with
  | Some (RTx t) => tx_parse (plat d) (expert_mode s) (sent tr) = Ret t /\
      forall kl i, review_item d s (RTx t) kl i = tx_getItem (plat d) (expert_mode s) kl (sent tr) t i
  | Some RMsg => parser_parse_message (sent tr) = Ret tt /\
      forall kl i, review_item d s RMsg kl i = parser_getMessageItem (plat d) (sent tr) i
  | _ => True
  end.
Proof. exact reviewed. Qed.
Print Assumptions C33_reviewed_partial.
Theorem C33_fits_partial :
  forall d s tr bs s' rp, device_ok d -> reach d s tr -> no_wasm_chunks tr -> pending s = None ->
  SA.chunk bs = true -> SA.ins bs <> 4 -> step d s (Apdu bs true) = Ret (s', rp) ->
  (refused rp = false -> zlen (sent tr ++ SA.payload bs) <= flash_size d) /\
  (flash_size d < zlen (sent tr ++ SA.payload bs) ->
     (rp = Status [] SA.too_long \/ rp = Status [] SA.no_session) /\ tx_initialized s' = false).
Proof. exact chunk_fits. Qed.
Print Assumptions C33_fits_partial.

(** With raw-WASM chunks mixed in, accepted payloads can be missing from the
    data of a transaction review. *)
Theorem C33_reviewed_refuted :
  exists d s tr t, device_ok d /\ reach d s tr /\ pending s = Some (RTx t) /\ tx_data (bufs s) <> sent tr /\
    Forall (fun x => snd x = Status [] SA.ok \/ snd x = NoReply) tr.
Proof. exact dropped_refuted. Qed.
Print Assumptions C33_reviewed_refuted.

Example C33_case : exists s tr1 st v pre, device_ok dev /\
  reach dev s (tr1 ++ [(Approve true, st, Signed (casper 0) pre)]) /\ pending st = Some (RTx (TDeploy v)) /\
  sent tr1 = deploy_bytes /\ no_wasm_chunks tr1.
Proof. destruct plain_history as (s & tr1 & st & v & pre & H). exists s, tr1, st, v, pre. tauto. Qed.
Example C33_long_case : exists s tr, reach dev s tr /\ Exists (fun x => snd x = Status [] SA.too_long) tr.
Proof. exact long_history. Qed.

(** ** C34  Signing uses the requested Casper key *)
(** Missing for the full claim: the path is the one of the last command that
    carries a path, which may be an address request, or an initial chunk that
    was refused because of its path. *)
Theorem C34_last_path_partial :
  forall d s tr1 e st p pre tr2, device_ok d ->
  reach d s (tr1 ++ (e, st, Signed p pre) :: tr2) ->
  exists tr0 bs st0 rp0 mid,
    tr1 = tr0 ++ (Apdu bs true, st0, rp0) :: mid /\ SA.has_path bs = true /\ pending st0 = None /\
    Forall (fun y => carries y = false) mid /\ p = SA.path bs /\
    (rp0 = Status [] SA.bad_data \/ SA.casper_path p).
Proof. exact signed_path. Qed.
Print Assumptions C34_last_path_partial.
Theorem C34_session_path_partial :
  forall d s tr1 ev st p pre tr2, device_ok d ->
  reach d s (tr1 ++ (ev, st, Signed p pre) :: tr2) ->
  Forall (fun x => seen_with SA.address x = false) tr1 ->
  Forall (fun x => seen_with SA.initial x = true -> snd x = Status [] SA.ok) tr1 ->
  exists tr0 bs st0 mid,
    tr1 = tr0 ++ (Apdu bs true, st0, Status [] SA.ok) :: mid /\ SA.initial bs = true /\ pending st0 = None /\
    Forall (fun y => seen_with SA.initial y = false) mid /\ p = SA.path bs /\ SA.casper_path p.
Proof. exact session_path. Qed.
Print Assumptions C34_session_path_partial.

Theorem C34_casper_path_refuted :
  exists d s tr1 st p pre, device_ok d /\ reach d s (tr1 ++ [(Approve true, st, Signed p pre)]) /\ ~ SA.casper_path p.
Proof. exact path_refuted. Qed.
Print Assumptions C34_casper_path_refuted.
Theorem C34_session_path_refuted :
  exists d s tr1 st p pre, device_ok d /\ reach d s (tr1 ++ [(Approve true, st, Signed p pre)]) /\
    forall tr0 bs st0 rp mid, tr1 = tr0 ++ (Apdu bs true, st0, rp) :: mid -> SA.initial bs = true -> SA.path bs <> p.
Proof. exact address_refuted. Qed.
Print Assumptions C34_session_path_refuted.

Example C34_case : exists s tr1 st v pre, device_ok dev /\
  reach dev s (tr1 ++ [(Approve true, st, Signed (casper 0) pre)]) /\ pending st = Some (RTx (TDeploy v)) /\
  Forall (fun x => seen_with SA.address x = false) tr1 /\
  Forall (fun x => seen_with SA.initial x = true -> snd x = Status [] SA.ok) tr1.
Proof. destruct plain_history as (s & tr1 & st & v & pre & H). exists s, tr1, st, v, pre. tauto. Qed.

(** ** C35  What is signed is what is shown (deploy / TransactionV1) *)
Theorem C35_deploy_hash :
  forall d s tr1 e st p pre tr2 v kl, device_ok d ->
  reach d s (tr1 ++ (e, st, Signed p pre) :: tr2) -> pending st = Some (RTx (TDeploy v)) ->
  review_item d st (RTx (TDeploy v)) kl 0 = Ret (mkItem (S.text "Txn hash") (VPaged (ST.cep57 (p_hash (plat d) pre) pre))).
Proof. exact deploy_hash_shown. Qed.
Print Assumptions C35_deploy_hash.
(** Either kind of transaction.  For a TransactionV1 the first item is there
    unless the review has no item at all (C18). *)
Theorem C35_signed_hash_partial :
  forall d s tr1 e st p pre tr2 t kl it, device_ok d ->
  reach d s (tr1 ++ (e, st, Signed p pre) :: tr2) -> pending st = Some (RTx t) ->
  review_item d st (RTx t) kl 0 = Ret it ->
  zlen pre = 32 /\ it = mkItem (S.text "Txn hash") (VPaged (ST.cep57 (p_hash (plat d) pre) pre)).
Proof. exact signed_hash_shown. Qed.
Print Assumptions C35_signed_hash_partial.

Example C35_case : exists s tr1 st v pre, device_ok dev /\
  reach dev s (tr1 ++ [(Approve true, st, Signed (casper 0) pre)]) /\ pending st = Some (RTx (TDeploy v)).
Proof. destruct plain_history as (s & tr1 & st & v & pre & H). exists s, tr1, st, v, pre. tauto. Qed.
Example C35_v1_case : exists s tr1 st v pre it, device_ok dev /\
  reach dev s (tr1 ++ [(Approve true, st, Signed (casper 0) pre)]) /\ pending st = Some (RTx (TV1 v)) /\
  review_item dev st (RTx (TV1 v)) 40 0 = Ret it.
Proof. exact v1_history. Qed.

(** ** C36  A finished signing session must be restarted *)
(** Missing for the full claim: sessions that sign a message. *)
Theorem C36_restart_partial :
  forall d s tr1 bs st1 rp1 mid bs2 st2 rp2 tr2, device_ok d ->
  reach d s (tr1 ++ (Apdu bs true, st1, rp1) :: mid ++ (Apdu bs2 true, st2, rp2) :: tr2) ->
  SA.last_chunk bs = true -> SA.ins bs <> 3 -> pending st1 = None ->
  Forall (fun y => seen_with SA.initial y = true -> snd y <> Status [] SA.ok) mid ->
  SA.chunk bs2 = true -> pending st2 = None ->
  rp2 = Status [] SA.no_session.
Proof. exact restart. Qed.
Print Assumptions C36_restart_partial.

Theorem C36_restart_refuted :
  exists d s tr1 st1 rp1 mid st2 rp2 bs bs2, device_ok d /\
    reach d s (tr1 ++ (Apdu bs true, st1, rp1) :: mid ++ [(Apdu bs2 true, st2, rp2)]) /\
    SA.last_chunk bs = true /\ pending st1 = None /\ rp1 = NoReply /\
    Forall (fun y => seen y = None) mid /\ SA.chunk bs2 = true /\ pending st2 = None /\ rp2 = NoReply.
Proof. exact reuse_refuted. Qed.
Print Assumptions C36_restart_refuted.

Example C36_case : exists s tr, reach dev s tr /\ sigs tr = 2 /\ Exists (fun x => snd x = Status [] SA.no_session) tr.
Proof. exact two_history. Qed.

(** ** C37  Every APDU gets a well-formed status *)
(** Missing for the full claim: [Undef], where the C code has no defined
    behaviour (C28-C30). *)
Theorem C37_answered_partial :
  forall d s bs pin r, device_ok d -> buf_ok d (bufs s) -> pending s = None -> step d s (Apdu bs pin) = r ->
  match r with
  | Ret (s', Status _ sw) => pending s' = None /\ 0 <= sw < 65536
  | Ret (s', NoReply) => pending s' <> None
  | Ret (_, Signed _ _) => False
  | Fail _ => False
  | Undef _ => True
  end.
Proof. exact answered. Qed.
Print Assumptions C37_answered_partial.
Theorem C37_unknown_refused :
  forall d s bs pin, pending s = None ->
  (SA.cla bs <> 17 -> step d s (Apdu bs pin) = Ret (s, Status [] SA.wrong_class)) /\
  (SA.cla bs = 17 -> zlen bs < 5 -> step d s (Apdu bs pin) = Ret (s, Status [] SA.wrong_size)) /\
  (SA.command bs = true -> ~ 0 <= SA.ins bs <= 4 -> step d s (Apdu bs pin) = Ret (s, Status [] SA.wrong_ins)) /\
  (SA.command bs = true -> 1 <= SA.ins bs <= 4 -> pin = false -> step d s (Apdu bs pin) = Ret (s, Status [] SA.not_allowed)).
Proof. exact unknown_refused. Qed.
Print Assumptions C37_unknown_refused.

Example C37_case : device_ok dev /\ buf_ok dev (bufs (boot dev)) /\ pending (boot dev) = None.
Proof. split; [exact dev_ok|]. split; [exact (reach_buf dev _ _ dev_ok (reach_boot dev)) | reflexivity]. Qed.

(** ** C38  Address response matches the shown address *)
(** Without confirmation on the device. *)
Theorem C38_address_answer :
  forall d s bs s' ans, device_ok d -> keys_ok d -> pending s = None -> SA.address bs = true -> SA.p1 bs = 0 ->
  step d s (Apdu bs true) = Ret (s', Status ans SA.ok) ->
  exists k, pubkey d (SA.path bs) = Some k /\ zlen k = 33 /\ SA.casper_path (SA.path bs) /\
    ans = k ++ S.text "02" ++ ST.cep57 (p_hash (plat d) k) k.
Proof. exact address_answer. Qed.
Print Assumptions C38_address_answer.
(** With confirmation: shown and returned. *)
Theorem C38_address_shown :
  forall d s tr, device_ok d -> keys_ok d -> reach d s tr -> pending s = Some RAddr ->
  exists tr0 bs st0 mid k,
    tr = tr0 ++ (Apdu bs true, st0, NoReply) :: mid /\ SA.address bs = true /\ SA.p1 bs <> 0 /\ pending st0 = None /\ Forall (ignored s) mid /\
    pubkey d (SA.path bs) = Some k /\ zlen k = 33 /\ SA.casper_path (SA.path bs) /\ hdPath s = SA.path bs /\
    (forall kl, review_item d s RAddr kl 0 = Ret (mkItem (S.text "Address") (VPaged (S.text "02" ++ ST.cep57 (p_hash (plat d) k) k)))) /\
    (forall ok, step d s (Approve ok) = Ret (set_pending None s, Status (k ++ S.text "02" ++ ST.cep57 (p_hash (plat d) k) k) SA.ok)).
Proof. exact address_shown. Qed.
Print Assumptions C38_address_shown.

Example C38_case : exists s tr, device_ok dev /\ keys_ok dev /\ reach dev s tr /\ pending s = Some RAddr.
Proof. exact address_history. Qed.
Example C38_answer_case : exists bs s' ans, SA.address bs = true /\ SA.p1 bs = 0 /\ pending (boot dev) = None /\
  step dev (boot dev) (Apdu bs true) = Ret (s', Status ans SA.ok).
Proof. exact address_case. Qed.
