(** Property C75: accepted bytes that look alike. *)
From Verif Require Import Base Zxlib Crypto Utils RuntimeArg Deploy DeployUI TxV1 TxV1UI Parser App BaseFacts Spec SpecText SpecDeploy SpecTx SpecLayout SpecRaw SpecForm SpecShow SpecLook SpecApp Exec Demo Shows ReviewFacts WitDeploy TxShow TxReview LookFacts DeploySign AppFacts AppHist LookForm WitLook WitAlike.
Import S SX SF SW SK.

(** ** C75  Bytes that look alike do the same *)
(** C47, C50 for arbitrary bytes.  [look_alike]: both are accepted, and all items
    but the first, the hash, are the same.  Missing: parts without a review in
    the specification; arguments from byte 256 on (C17); the last 64 sizes; what
    C47 leaves out. *)
Theorem C75_v1_partial :
  forall pf x data k u t data' k' u' t' la lb, hash32 (p_hash pf) ->
  bytes data -> zlen data < 65472 -> begins data k u -> depicts k u data t -> presentable t -> args_pos k u < 256 -> xexpert_ok x (p_time pf) (x_payload t) ->
  bytes data' -> zlen data' < 65472 -> begins data' k' u' -> depicts k' u' data' t' -> presentable t' -> args_pos k' u' < 256 -> xexpert_ok x (p_time pf) (x_payload t') ->
  look_alike pf x (1 :: data) (1 :: data') ->
  (review (p_hash pf) x t = Some la -> review (p_hash pf) x t' = Some lb -> same_frame (p_time pf) x t t' /\ same_deed (p_hash pf) x (x_payload t) (x_payload t')) /\
  (bare_review (p_hash pf) x t = Some la -> bare_review (p_hash pf) x t' = Some lb -> same_frame (p_time pf) x t t' /\ same_session (p_hash pf) x (x_payload t) (x_payload t')).
Proof. exact forms_alike. Qed.
Print Assumptions C75_v1_partial.
Example C75_case_v1 : forall (x : bool) (n : native), sample n -> exists data k u t data' k' u' t' la lb,
  bytes data /\ zlen data < 65472 /\ begins data k u /\ depicts k u data t /\ presentable t /\ args_pos k u < 256 /\ xexpert_ok x (p_time demo) (x_payload t) /\
  bytes data' /\ zlen data' < 65472 /\ begins data' k' u' /\ depicts k' u' data' t' /\ presentable t' /\ args_pos k' u' < 256 /\ xexpert_ok x (p_time demo) (x_payload t') /\
  look_alike demo x (1 :: data) (1 :: data') /\ review (p_hash demo) x t = Some la /\ review (p_hash demo) x t' = Some lb /\
  f_entry u = Op n /\ form_payload k u <> form_payload k' u' /\ ~ exact_numbers k u.
Proof. exact alike_case. Qed.

(** C46, C52 for deploys followed by any bytes in which a number of approvals is
    found ([trailing], C70). *)
Theorem C75_deploys_partial :
  forall pf x h p i r n sl h' p' i' r' n' sl', hash32 (p_hash pf) ->
  SD.good_header h -> S.len (SD.p_amount p) <= 64 -> SD.good_session i -> SD.h_bodyhash h = p_hash pf (SD.enc_payment p ++ SD.enc_session i) -> SR.trailing x i n r ->
  bytes (signed_deploy (p_hash pf) h p i ++ r) -> zlen (signed_deploy (p_hash pf) h p i ++ r) < 65531 -> SD.session_review (p_hash pf) x i = Some sl -> expert_ok x (p_time pf) h ->
  SD.good_header h' -> S.len (SD.p_amount p') <= 64 -> SD.good_session i' -> SD.h_bodyhash h' = p_hash pf (SD.enc_payment p' ++ SD.enc_session i') -> SR.trailing x i' n' r' ->
  bytes (signed_deploy (p_hash pf) h' p' i' ++ r') -> zlen (signed_deploy (p_hash pf) h' p' i' ++ r') < 65531 -> SD.session_review (p_hash pf) x i' = Some sl' -> expert_ok x (p_time pf) h' ->
  look_alike pf x (0 :: signed_deploy (p_hash pf) h p i ++ r) (0 :: signed_deploy (p_hash pf) h' p' i' ++ r') ->
  let a := SR.sealed (p_hash pf) h p i in let b := SR.sealed (p_hash pf) h' p' i' in
  same_context (p_time pf) x a b /\ text (SD.type_text i) = text (SD.type_text i') /\ (x = true -> n = n') /\
  (forall sa ta ma ia sb tb mb ib, transfers a sa ta ma ia -> transfers b sb tb mb ib -> kin ta tb -> kin_opt sa sb ->
     ta = tb /\ ma = mb /\ (x = true -> ia = ib /\ sa = sb)) /\
  (forall oa da va wa ma ob db vb wb mb, delegates a oa da va wa ma -> delegates b ob db vb wb mb ->
     oa = ob /\ da = db /\ va = vb /\ (oa = SD.ORedelegate -> wa = wb) /\ ma = mb) /\
  (x = true -> forall t ep l t' ep' l', i = SD.Stored t ep l -> i' = SD.Stored t' ep' l' -> same_target t t' /\ ep = ep').
Proof. exact deploys_look_alike. Qed.
Print Assumptions C75_deploys_partial.
Example C75_case_deploys : let d1 := transfer_id 1 in let d2 := transfer_id 2 in exists r n r' n' sl sl',
  let h := SD.d_header d1 in let p := SD.d_payment d1 in let i := SD.d_session d1 in let h' := SD.d_header d2 in let p' := SD.d_payment d2 in let i' := SD.d_session d2 in
  SD.good_header h /\ S.len (SD.p_amount p) <= 64 /\ SD.good_session i /\ SD.h_bodyhash h = p_hash demo (SD.enc_payment p ++ SD.enc_session i) /\ SR.trailing false i n r /\
  bytes (signed_deploy (p_hash demo) h p i ++ r) /\ zlen (signed_deploy (p_hash demo) h p i ++ r) < 65531 /\ SD.session_review (p_hash demo) false i = Some sl /\ expert_ok false (p_time demo) h /\
  SD.good_header h' /\ S.len (SD.p_amount p') <= 64 /\ SD.good_session i' /\ SD.h_bodyhash h' = p_hash demo (SD.enc_payment p' ++ SD.enc_session i') /\ SR.trailing false i' n' r' /\
  bytes (signed_deploy (p_hash demo) h' p' i' ++ r') /\ zlen (signed_deploy (p_hash demo) h' p' i' ++ r') < 65531 /\ SD.session_review (p_hash demo) false i' = Some sl' /\ expert_ok false (p_time demo) h' /\
  look_alike demo false (0 :: signed_deploy (p_hash demo) h p i ++ r) (0 :: signed_deploy (p_hash demo) h' p' i' ++ r') /\ i <> i' /\
  transfers (SR.sealed (p_hash demo) h p i) None (SD.KeyText 1 (repeat 34 32)) (SD.Motes 705032704) (SD.Number 1) /\
  transfers (SR.sealed (p_hash demo) h' p' i') None (SD.KeyText 1 (repeat 34 32)) (SD.Motes 705032704) (SD.Number 2).
Proof. exact deploy_alike_case. Qed.

(** In histories: if two devices in the same mode show the same screens, the
    hash apart, the transactions received look alike in the above sense. *)
Theorem C75_screens :
  forall d st tr r d' st' tr' r', device_ok d -> reach d st tr -> pending st = Some (RTx r) -> device_ok d' -> reach d' st' tr' -> pending st' = Some (RTx r') ->
  plat d = plat d' -> expert_mode st = expert_mode st' ->
  review_count st (RTx r) = review_count st' (RTx r') ->
  (forall i, 0 < i < review_count st (RTx r) -> review_item d st (RTx r) 40 i = review_item d' st' (RTx r') 40 i) ->
  look_alike (plat d) (expert_mode st) (tx_data (bufs st)) (tx_data (bufs st')).
Proof. exact screens_alike. Qed.
Print Assumptions C75_screens.
Example C75_case_screens : forall (x : bool) (n : native), sample n -> exists d st tr r st' tr' r', device_ok d /\ reach d st tr /\ pending st = Some (RTx r) /\ reach d st' tr' /\ pending st' = Some (RTx r') /\
  expert_mode st = x /\ expert_mode st' = x /\ review_count st (RTx r) = review_count st' (RTx r') /\
  (forall i, 0 < i < review_count st (RTx r) -> review_item d st (RTx r) 40 i = review_item d st' (RTx r') 40 i) /\ tx_data (bufs st) <> tx_data (bufs st').
Proof. exact screens_case. Qed.
