(** Properties C02 (descriptors read), C68 to C70: deploys in arbitrary bytes. *)
From Verif Require Import Base Zxlib Crypto Utils RuntimeArg Deploy DeployUI TxV1 TxV1UI Parser BaseFacts Spec SpecText SpecDeploy SpecLayout SpecRaw Exec Demo Shows ReviewFacts WitDeploy WitBind RawFacts RawShow WitRaw.
Import S.

(** ** C68  The body of an accepted deploy is a payment and a session *)
(** After header and hash come a payment and a session, one after the other,
    and nothing else is in the body that is hashed; the session has exactly as
    many arguments as it announces, each of a type the device reads.  Unless an
    argument before the last is one the device cannot read.  Missing for the
    full claim: that exception ([C68_refuted]); lengths near 2^32 ([no_leap]);
    types are read with all tags first. *)
Theorem C68_session_partial :
  forall pf x data v, hash32 (p_hash pf) -> bytes data -> zlen data < 65472 -> SL.no_leap data ->
  tx_parse pf x (0 :: data) = Ret (TDeploy v) ->
  exists hdr dh pay ses rest alg key f24 post,
    data = hdr ++ dh ++ pay ++ ses ++ rest /\ zlen dh = 32 /\ p_hash pf hdr = dh /\
    data = [alg] ++ key ++ f24 ++ p_hash pf (pay ++ ses) ++ post /\
    (alg = 1 /\ zlen key = 32 \/ alg = 2 /\ zlen key = 33) /\ zlen f24 = 24 /\
    zlen (hdr ++ dh ++ pay ++ ses) = snd (parse_content 0 (ctx_of pf x false 40 data (zlen data)) 0) /\
    SR.payment_bytes pay /\ (SR.session_bytes ses \/ SR.unreadable (ses ++ rest)).
Proof. exact accepted_session. Qed.
Print Assumptions C68_session_partial.
Example C68_case : forall x, exists v, bytes plain_tx /\ zlen plain_tx < 65472 /\ SL.no_leap plain_tx /\ tx_parse demo x (0 :: plain_tx) = Ret (TDeploy v).
Proof. exact session_case. Qed.

(** In general false: a search for an argument stops inside a type it does not
    know, the cursor stays there, and the arguments are read from there. *)
Theorem C68_refuted :
  exists pf x data v hdr dh pay ses rest, hash32 (p_hash pf) /\ bytes data /\ zlen data < 65472 /\ SL.no_leap data /\
    tx_parse pf x (0 :: data) = Ret (TDeploy v) /\ data = hdr ++ dh ++ pay ++ ses ++ rest /\ zlen dh = 32 /\ p_hash pf hdr = dh /\
    zlen (hdr ++ dh ++ pay ++ ses) = snd (parse_content 0 (ctx_of pf x false 40 data (zlen data)) 0) /\
    pay = SD.enc_payment demo_pay /\ forall i, ses <> SD.enc_session i.
Proof. exact not_a_deploy. Qed.
Print Assumptions C68_refuted.

(** ** C02  Which type descriptors are read *)
(** A descriptor at any position of any message is read exactly when it is one
    of [SR.type_bytes], and the cursor then is behind it. *)
Theorem C02_descriptors_read :
  forall it e o o', wf e -> 0 <= o < 65536 ->
  ((exists r, get_type it e o = (Ret r, o')) <->
   exists ty, SR.type_bytes ty /\ SL.here (mem e) o ty /\ o' = o + zlen ty).
Proof. exact type_exact. Qed.
Print Assumptions C02_descriptors_read.
(** Those are the encodings of the supported types, and few others. *)
Theorem C02_descriptors_known :
  forall ty, bytes ty -> SR.type_bytes ty -> (exists t, S.supported t = true /\ ty = S.enc_type t) \/ SR.odd_type ty.
Proof. exact type_classes. Qed.
Print Assumptions C02_descriptors_known.
Example C02_case_read : exists e o, wf e /\ 0 <= o < 65536 /\ exists ty, SR.type_bytes ty /\ SL.here (mem e) o ty /\ 1 < zlen ty.
Proof. exact type_case. Qed.

(** ** C69  An accepted deploy is the encoding of a deploy *)
(** Header, hash of the header, payment, session: with a header whose body hash
    is the hash of the last two.  Missing for the full claim, which is false
    ([C68_refuted]): announced counts of dependencies from 2042 on, types with
    a parameter that is not last or with container keys, sessions with
    arguments the device cannot read; lengths near 2^32. *)
Theorem C69_encoding_partial :
  forall pf x data v, hash32 (p_hash pf) -> bytes data -> zlen data < 65472 -> SL.no_leap data ->
  tx_parse pf x (0 :: data) = Ret (TDeploy v) ->
  SR.crowded data \/
  exists h pay ses rest,
    data = SD.enc_header h ++ p_hash pf (SD.enc_header h) ++ pay ++ ses ++ rest /\
    SR.form_header h /\ SD.h_bodyhash h = p_hash pf (pay ++ ses) /\ SR.payment_bytes pay /\
    zlen (SD.enc_header h ++ p_hash pf (SD.enc_header h) ++ pay ++ ses) = snd (parse_content 0 (ctx_of pf x false 40 data (zlen data)) 0) /\
    ((exists i, ses = SD.enc_session i /\ SR.form_session i) \/ SR.odd_session ses \/ SR.unreadable (ses ++ rest)).
Proof. exact accepted_encoding. Qed.
Print Assumptions C69_encoding_partial.
Example C69_case : forall x, exists v, bytes plain_tx /\ zlen plain_tx < 65472 /\ SL.no_leap plain_tx /\ tx_parse demo x (0 :: plain_tx) = Ret (TDeploy v).
Proof. exact session_case. Qed.

(** ** C70  An accepted deploy is shown for what it is *)
(** Deploys followed by any bytes are accepted and reviewed as specified; as
    number of approvals the first four of these bytes are shown. *)
Theorem C70_trailing_bytes :
  forall pf x h p i n r s,
  hash32 (p_hash pf) -> SD.good_header h -> S.len (SD.p_amount p) <= 64 -> SD.good_session i ->
  SD.h_bodyhash h = p_hash pf (SD.enc_payment p ++ SD.enc_session i) -> SR.trailing x i n r ->
  let data := SD.enc_header h ++ p_hash pf (SD.enc_header h) ++ SD.enc_payment p ++ SD.enc_session i ++ r in
  bytes data -> zlen data < 65535 ->
  SD.session_review (p_hash pf) x i = Some s -> expert_ok x (p_time pf) h ->
  reviews pf x (0 :: data) (SR.around_n x (SR.sealed (p_hash pf) h p i) n s).
Proof. exact shown_sealed. Qed.
Print Assumptions C70_trailing_bytes.
(** Whatever is accepted as a deploy is, apart from the anomalies of C69, the
    encoding of a deploy, and when the specification describes its review this
    review is what is shown.  Missing for the full claim: the anomalies; texts
    with NULs or longer than the screen buffers ([good_header],
    [good_session]), lifetimes of 29 days and more ([expert_ok]), bytes after
    module code ([trailing]). *)
Theorem C70_accepted_partial :
  forall pf x data v, hash32 (p_hash pf) -> bytes data -> zlen data < 65472 -> SL.no_leap data ->
  tx_parse pf x (0 :: data) = Ret (TDeploy v) ->
  SR.crowded data \/
  exists h pay ses rest,
    data = SD.enc_header h ++ p_hash pf (SD.enc_header h) ++ pay ++ ses ++ rest /\ SR.form_header h /\ SR.payment_bytes pay /\
    (SR.odd_session ses \/ SR.unreadable (ses ++ rest) \/
     exists i, ses = SD.enc_session i /\ SR.form_session i /\
       forall p n s, pay = SD.enc_payment p -> SD.good_header h -> S.len (SD.p_amount p) <= 64 -> SD.good_session i -> SR.trailing x i n rest ->
       SD.session_review (p_hash pf) x i = Some s -> expert_ok x (p_time pf) h ->
       reviews pf x (0 :: data) (SR.around_n x (SR.sealed (p_hash pf) h p i) n s)).
Proof. exact accepted_shown. Qed.
Print Assumptions C70_accepted_partial.
Example C70_case : forall x, let d := d_transfer in let i := SD.d_session d in exists s,
  hash32 (p_hash demo) /\ SD.good_header (SD.d_header d) /\ S.len (SD.p_amount (SD.d_payment d)) <= 64 /\ SD.good_session i /\
  SD.h_bodyhash (SD.d_header d) = p_hash demo (SD.enc_payment (SD.d_payment d) ++ SD.enc_session i) /\ SR.trailing x i 77 odd_tail /\
  SD.session_review (p_hash demo) x i = Some s /\ expert_ok x (p_time demo) (SD.d_header d) /\
  let data := SD.enc_header (SD.d_header d) ++ p_hash demo (SD.enc_header (SD.d_header d)) ++ SD.enc_payment (SD.d_payment d) ++ SD.enc_session i ++ odd_tail in
  bytes data /\ zlen data < 65472 /\ SL.no_leap data.
Proof. exact trailing_case. Qed.
