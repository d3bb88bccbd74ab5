(** Property C74: what a signature stands for. *)
From Verif Require Import Base Zxlib Crypto Utils RuntimeArg Deploy DeployUI TxV1 TxV1UI Parser App BaseFacts Spec SpecText SpecDeploy SpecTx SpecLayout SpecRaw SpecForm SpecShow SpecApp Exec Demo Shows ReviewFacts TxShow TxReview FormArgs AppFacts AppHist AppClaims FormSign DeploySign WitSign.
Import S SX SF SW.

(** ** C74  A signature stands for one payload and one review *)
(** In every history: when the approval of a TransactionV1 signs [pre], the
    bytes received begin with a form ([begins], SpecShow) whose payload has the
    hash [pre], and if its parts have a specified review, this review was on the
    screen.  Unless raw-WASM chunks were mixed in (C33) the bytes received are
    those sent.  Missing: lengths near 2^32, the last 64 sizes; for the review,
    arguments from byte 256 on (C17). *)
Theorem C74_signed_partial :
  forall d s tr1 e st p pre tr2 v, device_ok d -> reach d s (tr1 ++ (e, st, Signed p pre) :: tr2) -> pending st = Some (RTx (TV1 v)) -> flash_size d <= 65472 ->
  exists data, tx_data (bufs st) = 1 :: data /\ (no_wasm_chunks tr1 -> sent tr1 = 1 :: data) /\
    (SL.no_leap data -> exists k u, begins data k u /\ pre = f_hash u) /\
    forall k u, begins data k u -> pre = f_hash u /\ pre = p_hash (plat d) (form_payload k u) /\
      forall t lines, depicts k u data t -> presentable t -> args_pos k u < 256 ->
      review (p_hash (plat d)) (expert_mode st) t = Some lines \/ bare_review (p_hash (plat d)) (expert_mode st) t = Some lines ->
      xexpert_ok (expert_mode st) (p_time (plat d)) (x_payload t) -> on_screen d st (RTx (TV1 v)) lines.
Proof. exact signed_v1. Qed.
Print Assumptions C74_signed_partial.

(** Two signatures of the same 32 bytes, on any two devices in the same mode:
    payloads and screens were the same (in expert mode up to the last line, the
    number of approvals), or two payloads collide. *)
Theorem C74_same_v1_partial :
  forall d s tr1 e st p pre tr2 v data k u d' s' tr1' e' st' p' tr2' v' data' k' u' t lines,
  device_ok d -> reach d s (tr1 ++ (e, st, Signed p pre) :: tr2) -> pending st = Some (RTx (TV1 v)) -> flash_size d <= 65472 -> tx_data (bufs st) = 1 :: data -> begins data k u ->
  device_ok d' -> reach d' s' (tr1' ++ (e', st', Signed p' pre) :: tr2') -> pending st' = Some (RTx (TV1 v')) -> flash_size d' <= 65472 -> tx_data (bufs st') = 1 :: data' -> begins data' k' u' ->
  plat d = plat d' -> expert_mode st = expert_mode st' ->
  inside k u -> depicts k u data t -> presentable t -> review (p_hash (plat d)) (expert_mode st) t = Some lines \/ bare_review (p_hash (plat d)) (expert_mode st) t = Some lines ->
  xexpert_ok (expert_mode st) (p_time (plat d)) (x_payload t) -> args_pos k u < 256 -> args_pos k' u' < 256 -> zlen (f_approvals u') < 256 ->
  (form_payload k u = form_payload k' u' /\
   exists lines', on_screen d st (RTx (TV1 v)) lines /\ on_screen d' st' (RTx (TV1 v')) lines' /\ if expert_mode st then removelast lines' = removelast lines else lines' = lines) \/
  (form_payload k u <> form_payload k' u' /\ p_hash (plat d) (form_payload k u) = p_hash (plat d) (form_payload k' u')).
Proof. exact same_signed. Qed.
Print Assumptions C74_same_v1_partial.
Example C74_case : forall (x : bool) (n : native), exists d s tr1 e st p pre tr2 v data k u s' tr1' e' st' p' tr2' v' data' k' u' t lines,
  device_ok d /\ reach d s (tr1 ++ (e, st, Signed p pre) :: tr2) /\ pending st = Some (RTx (TV1 v)) /\ flash_size d <= 65472 /\ tx_data (bufs st) = 1 :: data /\ begins data k u /\
  reach d s' (tr1' ++ (e', st', Signed p' pre) :: tr2') /\ pending st' = Some (RTx (TV1 v')) /\ tx_data (bufs st') = 1 :: data' /\ begins data' k' u' /\
  expert_mode st = x /\ expert_mode st' = x /\ SL.no_leap data /\ f_entry u = Op n /\ data <> data' /\
  inside k u /\ depicts k u data t /\ presentable t /\ review (p_hash (plat d)) x t = Some lines /\
  xexpert_ok x (p_time (plat d)) (x_payload t) /\ args_pos k u < 256 /\ args_pos k' u' < 256 /\ zlen (f_approvals u') < 256.
Proof. exact signed_case. Qed.

(** The same for deploys: a signature of the hash of the header [h] was preceded
    by the review of [h], [p], [i], and whatever else was signed with the same
    32 bytes begins with the same header, payment and session, and its review
    was the same up to the number of approvals; or a header or a body collides.
    [SR.trailing]: what follows the session (C70). *)
Theorem C74_same_deploy_partial :
  forall d s tr1 e st q pre tr2 v d' s' tr1' e' st' q' tr2' v' data' h p i r n sl,
  device_ok d -> reach d s (tr1 ++ (e, st, Signed q pre) :: tr2) -> pending st = Some (RTx (TDeploy v)) -> tx_data (bufs st) = 0 :: signed_deploy (p_hash (plat d)) h p i ++ r ->
  device_ok d' -> reach d' s' (tr1' ++ (e', st', Signed q' pre) :: tr2') -> pending st' = Some (RTx (TDeploy v')) -> tx_data (bufs st') = 0 :: data' ->
  plat d = plat d' -> expert_mode st = expert_mode st' ->
  SD.good_header h -> len (SD.p_amount p) <= 64 -> SD.good_session i -> SD.h_bodyhash h = p_hash (plat d) (SD.enc_payment p ++ SD.enc_session i) -> SR.trailing (expert_mode st) i n r ->
  SD.session_review (p_hash (plat d)) (expert_mode st) i = Some sl -> expert_ok (expert_mode st) (p_time (plat d)) h ->
  (exists r', data' = signed_deploy (p_hash (plat d)) h p i ++ r' /\
     screen_shows d st (RTx (TDeploy v)) (SR.around_n (expert_mode st) (SR.sealed (p_hash (plat d)) h p i) n sl) /\
     forall n', SR.trailing (expert_mode st) i n' r' -> screen_shows d' st' (RTx (TDeploy v')) (SR.around_n (expert_mode st) (SR.sealed (p_hash (plat d)) h p i) n' sl)) \/
  (exists a b, (exists x y, data' = x ++ b ++ y) /\ (a = SD.enc_header h \/ a = SD.enc_payment p ++ SD.enc_session i) /\ a <> b /\ p_hash (plat d) a = p_hash (plat d) b).
Proof. exact same_deploys. Qed.
Print Assumptions C74_same_deploy_partial.
Example C74_case_deploys : forall x : bool, exists d s tr1 e st q pre tr2 v s' tr1' e' st' q' tr2' v' data' h p i r n sl n' r',
  device_ok d /\ reach d s (tr1 ++ (e, st, Signed q pre) :: tr2) /\ pending st = Some (RTx (TDeploy v)) /\ tx_data (bufs st) = 0 :: signed_deploy (p_hash (plat d)) h p i ++ r /\
  reach d s' (tr1' ++ (e', st', Signed q' pre) :: tr2') /\ pending st' = Some (RTx (TDeploy v')) /\ tx_data (bufs st') = 0 :: data' /\
  expert_mode st = x /\ expert_mode st' = x /\ n <> n' /\
  SD.good_header h /\ len (SD.p_amount p) <= 64 /\ SD.good_session i /\ SD.h_bodyhash h = p_hash (plat d) (SD.enc_payment p ++ SD.enc_session i) /\ SR.trailing x i n r /\
  SD.session_review (p_hash (plat d)) x i = Some sl /\ expert_ok x (p_time (plat d)) h /\ data' = signed_deploy (p_hash (plat d)) h p i ++ r' /\ SR.trailing x i n' r'.
Proof. exact deploys_case. Qed.
