(** Properties C46 to C53: transactions that look alike. *)
From Verif Require Import Base Zxlib Crypto Utils RuntimeArg Deploy DeployUI TxV1 TxV1UI Parser BaseFacts Spec SpecText SpecDeploy SpecTx SpecLook Exec TextFacts Shows ReviewFacts Demo DeployCases WitDeploy TxShow TxReview TxClaims WitTx LookFacts LookTx WitLook.
Import S ST SD SX SK.

(** [look_alike pf x da db] (LookFacts): both byte strings are accepted, have the
    same number of items, and agree in every item but the first, the hash. *)

(** ** C46  Deploys that look alike do the same *)
(** Missing for the full claim: the time to live is compared in seconds. *)
Theorem C46_transfers_partial :
  forall pf x a b sa ta ma ia sb tb mb ib,
  hash32 (p_hash pf) -> good_deploy (p_hash pf) a -> good_deploy (p_hash pf) b ->
  expert_ok x (p_time pf) (d_header a) -> expert_ok x (p_time pf) (d_header b) ->
  transfers a sa ta ma ia -> transfers b sb tb mb ib -> kin ta tb -> kin_opt sa sb ->
  look_alike pf x (enc_tx a) (enc_tx b) ->
  same_context (p_time pf) x a b /\ ta = tb /\ ma = mb /\ (x = true -> ia = ib /\ sa = sb).
Proof. exact transfers_alike. Qed.
Print Assumptions C46_transfers_partial.
Example C46_transfers_case :
  let d1 := transfer_id 1 in let d2 := transfer_id 2 in
  good_deploy (p_hash demo) d1 /\ good_deploy (p_hash demo) d2 /\
  expert_ok false (p_time demo) (d_header d1) /\ expert_ok false (p_time demo) (d_header d2) /\
  transfers d1 None (KeyText 1 (repeat 34 32)) (Motes 705032704) (Number 1) /\
  transfers d2 None (KeyText 1 (repeat 34 32)) (Motes 705032704) (Number 2) /\
  look_alike demo false (enc_tx d1) (enc_tx d2).
Proof. exact transfer_pair. Qed.

Theorem C46_delegations_partial :
  forall pf x a b oa da va wa ma ob db vb wb mb,
  hash32 (p_hash pf) -> good_deploy (p_hash pf) a -> good_deploy (p_hash pf) b ->
  expert_ok x (p_time pf) (d_header a) -> expert_ok x (p_time pf) (d_header b) ->
  delegates a oa da va wa ma -> delegates b ob db vb wb mb ->
  look_alike pf x (enc_tx a) (enc_tx b) ->
  same_context (p_time pf) x a b /\ oa = ob /\ da = db /\ va = vb /\ (oa = ORedelegate -> wa = wb) /\ ma = mb.
Proof. exact delegations_alike. Qed.
Print Assumptions C46_delegations_partial.
Example C46_delegations_case :
  good_deploy (p_hash demo) by_contract /\ good_deploy (p_hash demo) by_module /\
  (forall d, expert_ok false (p_time demo) (d_header d)) /\
  delegates by_contract ODelegate (KeyText 1 demo_key) (KeyText 2 (repeat 5 33)) (Words []) (Motes 705032704) /\
  delegates by_module ODelegate (KeyText 1 demo_key) (KeyText 2 (repeat 5 33)) (Words []) (Motes 705032704) /\
  look_alike demo false (enc_tx by_contract) (enc_tx by_module).
Proof. exact delegation_pair. Qed.

(** Times to live that differ by less than a second look alike, in both formats. *)
Theorem C46_ttl_refuted :
  exists pf a b c d, hash32 (p_hash pf) /\ good_deploy (p_hash pf) a /\ good_deploy (p_hash pf) b /\
    h_ttl (d_header a) <> h_ttl (d_header b) /\ look_alike pf true (enc_tx a) (enc_tx b) /\
    good_transaction (p_hash pf) c /\ good_transaction (p_hash pf) d /\
    x_ttl (x_payload c) <> x_ttl (x_payload d) /\ look_alike pf true (enc_v1 c) (enc_v1 d).
Proof. exact ttl_refuted. Qed.
Print Assumptions C46_ttl_refuted.

(** ** C47  TransactionV1s that look alike do the same *)
(** Missing for the full claim: the time to live is compared in seconds, the
    arguments of a contract call and the vectors of reservations by their hash,
    an address by the digits of its bytes. *)
Theorem C47_look_alike_partial :
  forall pf x a b la lb, hash32 (p_hash pf) ->
  good_transaction (p_hash pf) a -> good_transaction (p_hash pf) b ->
  xexpert_ok x (p_time pf) (x_payload a) -> xexpert_ok x (p_time pf) (x_payload b) ->
  before_args a < 256 -> before_args b < 256 ->
  review (p_hash pf) x a = Some la -> review (p_hash pf) x b = Some lb ->
  look_alike pf x (enc_v1 a) (enc_v1 b) ->
  same_frame (p_time pf) x a b /\ same_deed (p_hash pf) x (x_payload a) (x_payload b).
Proof. exact v1s_alike. Qed.
Print Assumptions C47_look_alike_partial.
Example C47_case t : In t (t_native NTransfer :: t_native NAddReservations :: t_calls) ->
  v1_hyps false t /\ v1_hyps false (later t 5000) /\
  (exists la, review (p_hash demo) false t = Some la) /\ (exists lb, review (p_hash demo) false (later t 5000) = Some lb) /\
  look_alike demo false (enc_v1 t) (enc_v1 (later t 5000)).
Proof. exact (v1_pair t). Qed.

(** Calls of two different contracts with the same review. *)
Theorem C47_address_refuted :
  exists pf a b h k r, hash32 (p_hash pf) /\ good_transaction (p_hash pf) a /\ good_transaction (p_hash pf) b /\
    x_target (x_payload a) = XStored (ByHash h) r /\ x_target (x_payload b) = XStored (ByHash k) r /\ h <> k /\
    look_alike pf true (enc_v1 a) (enc_v1 b).
Proof. exact address_refuted. Qed.
Print Assumptions C47_address_refuted.

(** ** C48  The pricing of a TransactionV1 is visible *)
(** Missing for the full claim: normal mode, the standard-payment flag and the
    computation factor, reviews whose number of items wraps (C18). *)
Theorem C48_pricing_partial :
  forall pf a b, hash32 (p_hash pf) -> good_transaction (p_hash pf) a -> good_transaction (p_hash pf) b ->
  xexpert_ok true (p_time pf) (x_payload a) -> xexpert_ok true (p_time pf) (x_payload b) ->
  item_count true (x_payload a) < 256 -> item_count true (x_payload b) < 256 ->
  look_alike pf true (enc_v1 a) (enc_v1 b) ->
  same_pricing (x_pricing (x_payload a)) (x_pricing (x_payload b)).
Proof. exact pricing_alike. Qed.
Print Assumptions C48_pricing_partial.

(** No other pricing is visible: replacing the pricing of a transaction never
    changes what normal mode shows, and in expert mode only when the amount,
    the gas price or the receipt changes. *)
Theorem C48_pricing_unseen :
  forall pf x a b, hash32 (p_hash pf) -> good_transaction (p_hash pf) a -> good_transaction (p_hash pf) b ->
  xexpert_ok x (p_time pf) (x_payload a) -> xexpert_ok x (p_time pf) (x_payload b) ->
  before_args a < 256 -> before_args b < 256 ->
  forall q la, review (p_hash pf) x a = Some la -> x_payload b = reprice (x_payload a) q ->
  (x = true -> same_pricing (x_pricing (x_payload a)) q /\ S.len (x_approvals a) = S.len (x_approvals b)) ->
  look_alike pf x (enc_v1 a) (enc_v1 b).
Proof. exact pricing_unseen. Qed.
Print Assumptions C48_pricing_unseen.
Example C48_hypotheses x q : In q [Classic 1 1 true; Classic 999999999999 9 false; Fixed 3 1; Fixed 3 200; Classic 1 1 false] ->
  v1_hyps x (t_priced q).
Proof. exact (priced_hyps x q). Qed.
Example C48_case : exists la, review (p_hash demo) true (t_priced (Fixed 3 1)) = Some la /\
  x_payload (t_priced (Fixed 3 200)) = reprice (x_payload (t_priced (Fixed 3 1))) (Fixed 3 200).
Proof. exact priced_case. Qed.

Theorem C48_pricing_refuted :
  (exists pf a b, hash32 (p_hash pf) /\ good_transaction (p_hash pf) a /\ good_transaction (p_hash pf) b /\
     (exists m g s n h u, x_pricing (x_payload a) = Classic m g s /\ x_pricing (x_payload b) = Classic n h u /\ m <> n /\ g <> h) /\
     look_alike pf false (enc_v1 a) (enc_v1 b)) /\
  (exists pf a b, hash32 (p_hash pf) /\ good_transaction (p_hash pf) a /\ good_transaction (p_hash pf) b /\
     (exists g f k, x_pricing (x_payload a) = Fixed g f /\ x_pricing (x_payload b) = Fixed g k /\ f <> k) /\
     look_alike pf true (enc_v1 a) (enc_v1 b)) /\
  (exists pf a b, hash32 (p_hash pf) /\ good_transaction (p_hash pf) a /\ good_transaction (p_hash pf) b /\
     (exists m g, x_pricing (x_payload a) = Classic m g true /\ x_pricing (x_payload b) = Classic m g false) /\
     look_alike pf true (enc_v1 a) (enc_v1 b)).
Proof. exact pricing_refuted. Qed.
Print Assumptions C48_pricing_refuted.

(** ** C49  Only native operations are shown as native operations *)
(** Missing for the full claim: transactions that carry module code. *)
Theorem C49_shown_native_partial :
  forall pf x t v kl it, hash32 (p_hash pf) -> good_transaction (p_hash pf) t -> xexpert_ok x (p_time pf) (x_payload t) ->
  tx_parse pf x (enc_v1 t) = Ret v -> 1 < getNumItems x v -> tx_getItem pf x kl (enc_v1 t) v 1 = Ret it ->
  ival it <> VDirect (text "Contract Execution") ->
  ival it = VDirect (text (entry_text (x_entry (x_payload t)))) /\
  (x_target (x_payload t) = Native \/ session_target (x_target (x_payload t))).
Proof. exact shown_native. Qed.
Print Assumptions C49_shown_native_partial.
Theorem C49_any_bytes_partial :
  forall pf x data v, tx_parse pf x data = Ret (TV1 v) ->
  entry_point_type v = EntryPointCustom \/ ttype (ttarget v) = TargetNative \/ ttype (ttarget v) = TargetSession.
Proof. exact accepted_kind. Qed.
Print Assumptions C49_any_bytes_partial.

(** Module code with the entry point of a native operation shows the review of
    that operation, whatever the code. *)
Theorem C49_code_as_native :
  forall pf x a b, hash32 (p_hash pf) -> good_transaction (p_hash pf) a -> good_transaction (p_hash pf) b ->
  xexpert_ok x (p_time pf) (x_payload a) -> xexpert_ok x (p_time pf) (x_payload b) ->
  before_args a < 256 -> before_args b < 256 ->
  forall n la, review (p_hash pf) x a = Some la ->
  x_entry (x_payload a) = Op n -> x_entry (x_payload b) = Op n -> x_args (x_payload a) = x_args (x_payload b) ->
  session_target (x_target (x_payload b)) -> same_header a b -> look_alike pf x (enc_v1 a) (enc_v1 b).
Proof. exact code_as_native. Qed.
Print Assumptions C49_code_as_native.
Theorem C49_only_native_refuted :
  exists pf t w, hash32 (p_hash pf) /\ good_transaction (p_hash pf) t /\ x_target (x_payload t) = Session false VmV1 w /\
    forall x, exists v it, tx_parse pf x (enc_v1 t) = Ret v /\ tx_getItem pf x 40 (enc_v1 t) v 1 = Ret it /\ it = mkItem (text "Type") (VDirect (text "Transfer")).
Proof. exact native_refuted. Qed.
Print Assumptions C49_only_native_refuted.
Example C49_case : exists la,
  review (p_hash demo) true (mkx alice "casper" classic transfer_args Native (Op NTransfer)) = Some la /\
  v1_hyps true (mkx alice "casper" classic transfer_args Native (Op NTransfer)) /\
  same_header (mkx alice "casper" classic transfer_args Native (Op NTransfer)) (t_code some_code transfer_args (Op NTransfer)).
Proof. exact code_case. Qed.
Example C49_hypotheses x e : In e [Call; Custom (text "mint"); Op NTransfer] -> v1_hyps x (t_code some_code transfer_args e).
Proof. exact (code_hyps x e). Qed.

(** ** C50  The code and arguments a TransactionV1 runs are visible *)
(** Missing for the full claim: the code, the name of the entry point, the
    arguments of the entry point Call; other arguments are compared as in C47. *)
Theorem C50_sessions_partial :
  forall pf x a b la lb, hash32 (p_hash pf) ->
  good_transaction (p_hash pf) a -> good_transaction (p_hash pf) b ->
  xexpert_ok x (p_time pf) (x_payload a) -> xexpert_ok x (p_time pf) (x_payload b) ->
  before_args a < 256 -> before_args b < 256 ->
  bare_review (p_hash pf) x a = Some la -> bare_review (p_hash pf) x b = Some lb ->
  look_alike pf x (enc_v1 a) (enc_v1 b) ->
  same_frame (p_time pf) x a b /\ same_session (p_hash pf) x (x_payload a) (x_payload b).
Proof. exact sessions_alike. Qed.
Print Assumptions C50_sessions_partial.
Example C50_sessions_case e : In e [Call; Custom (text "mint"); Op NTransfer] ->
  let a := t_code some_code transfer_args e in let b := t_code [1] transfer_args e in
  v1_hyps true a /\ v1_hyps true b /\ (exists la, bare_review (p_hash demo) true a = Some la) /\
  (exists lb, bare_review (p_hash demo) true b = Some lb) /\ look_alike demo true (enc_v1 a) (enc_v1 b).
Proof. exact (sessions_case e). Qed.

(** False for all code: with the entry point Call nothing of code and arguments
    is shown, with a custom entry point nothing of the code and of its name. *)
Theorem C50_call_unseen :
  forall pf x a b, hash32 (p_hash pf) -> good_transaction (p_hash pf) a -> good_transaction (p_hash pf) b ->
  xexpert_ok x (p_time pf) (x_payload a) -> xexpert_ok x (p_time pf) (x_payload b) ->
  before_args a < 256 -> before_args b < 256 ->
  session_target (x_target (x_payload a)) -> session_target (x_target (x_payload b)) ->
  x_entry (x_payload a) = Call -> x_entry (x_payload b) = Call -> same_header a b -> look_alike pf x (enc_v1 a) (enc_v1 b).
Proof. exact call_unseen. Qed.
Print Assumptions C50_call_unseen.
Theorem C50_custom_unseen :
  forall pf x a b, hash32 (p_hash pf) -> good_transaction (p_hash pf) a -> good_transaction (p_hash pf) b ->
  xexpert_ok x (p_time pf) (x_payload a) -> xexpert_ok x (p_time pf) (x_payload b) ->
  before_args a < 256 -> before_args b < 256 ->
  forall e f, session_target (x_target (x_payload a)) -> session_target (x_target (x_payload b)) ->
  x_entry (x_payload a) = Custom e -> x_entry (x_payload b) = Custom f -> x_args (x_payload a) = x_args (x_payload b) ->
  same_header a b -> look_alike pf x (enc_v1 a) (enc_v1 b).
Proof. exact custom_unseen. Qed.
Print Assumptions C50_custom_unseen.
Example C50_case x : v1_hyps x (t_code [1] (Named []) Call) /\ v1_hyps x (t_code some_code transfer_args Call) /\
  same_header (t_code [1] (Named []) Call) (t_code some_code transfer_args Call).
Proof. exact (call_case2 x). Qed.

Theorem C50_code_refuted :
  exists pf a b r, hash32 (p_hash pf) /\ good_transaction (p_hash pf) a /\ good_transaction (p_hash pf) b /\
    x_target (x_payload a) = Session false r [1] /\ x_target (x_payload b) = Session false r some_code /\
    x_args (x_payload a) = Named [] /\ x_args (x_payload b) = Named [arg_id; arg_target; arg_amount] /\
    look_alike pf true (enc_v1 a) (enc_v1 b).
Proof. exact code_refuted. Qed.
Print Assumptions C50_code_refuted.

(** ** C51  Chain name and pricing are shown exactly whatever the length of the chain name *)
(** Every item up to the pricing, also of transactions without a specified
    review.  Missing for the full claim: chain names longer than 99 bytes or with
    a NUL ([good_transaction]), reviews whose number of items wraps (C18). *)
Theorem C51_top_items_partial :
  forall pf x t v i l, hash32 (p_hash pf) -> good_transaction (p_hash pf) t -> xexpert_ok x (p_time pf) (x_payload t) ->
  tx_parse pf x (enc_v1 t) = Ret v -> Z.of_nat i < getNumItems x v -> nth_error (top_lines x t) i = Some l ->
  forall kl, exists it, tx_getItem pf x kl (enc_v1 t) v (Z.of_nat i) = Ret it /\ xshows (p_hash pf) (p_time pf) l it.
Proof. exact top_shown. Qed.
Print Assumptions C51_top_items_partial.
Example C51_case x : exists v, v1_hyps x (t_code some_code transfer_args Call) /\
  tx_parse demo x (enc_v1 (t_code some_code transfer_args Call)) = Ret v /\ 3 < getNumItems x v.
Proof. exact (top_case x). Qed.

(** A chain name of 262 bytes: "casper" and another amount are shown. *)
Theorem C51_chain_refuted :
  exists pf t v c p, hash32 (p_hash pf) /\ sealed (p_hash pf) t /\ tx_parse pf true (enc_v1 t) = Ret v /\
    tx_getItem pf true 40 (enc_v1 t) v 2 = Ret c /\ ikey c = text "Chain ID" /\ ival c = VPaged (text "casper") /\ x_chain (x_payload t) <> text "casper" /\
    tx_getItem pf true 40 (enc_v1 t) v 6 = Ret p /\ ikey p = text "Payment" /\
    exists m g s, x_pricing (x_payload t) = Classic m g s /\ ~ xrenders (p_hash pf) (p_time pf) (Grouped m) (ival p).
Proof. exact chain_refuted. Qed.
Print Assumptions C51_chain_refuted.

(** ** C52  Contract names and entry points are shown completely *)
(** Missing for the full claim: names longer than 99 bytes or with a NUL. *)
Theorem C52_deploy_calls_partial :
  forall pf a b t ep l t' ep' l' la lb, hash32 (p_hash pf) ->
  good_deploy (p_hash pf) a -> good_deploy (p_hash pf) b ->
  expert_ok true (p_time pf) (d_header a) -> expert_ok true (p_time pf) (d_header b) ->
  d_session a = Stored t ep l -> d_session b = Stored t' ep' l' ->
  SD.review (p_hash pf) true a = Some la -> SD.review (p_hash pf) true b = Some lb ->
  look_alike pf true (enc_tx a) (enc_tx b) -> same_target t t' /\ ep = ep'.
Proof. exact calls_alike. Qed.
Print Assumptions C52_deploy_calls_partial.
Example C52_case :
  let a := mk (Stored (ByName (text "counter")) (text "increment") [arg_note 65]) in
  let b := mk (Stored (ByName (text "counter")) (text "increment") [arg_note 66]) in
  good_deploy (p_hash demo) a /\ good_deploy (p_hash demo) b /\ expert_ok true (p_time demo) (d_header a) /\ expert_ok true (p_time demo) (d_header b) /\
  (exists la, SD.review (p_hash demo) true a = Some la) /\ exists lb, SD.review (p_hash demo) true b = Some lb.
Proof. exact calls_case. Qed.
Theorem C52_v1_calls_partial :
  forall pf x a b i r e j s f la lb, hash32 (p_hash pf) ->
  good_transaction (p_hash pf) a -> good_transaction (p_hash pf) b ->
  xexpert_ok x (p_time pf) (x_payload a) -> xexpert_ok x (p_time pf) (x_payload b) ->
  before_args a < 256 -> before_args b < 256 ->
  x_target (x_payload a) = XStored i r -> x_entry (x_payload a) = Custom e ->
  x_target (x_payload b) = XStored j s -> x_entry (x_payload b) = Custom f ->
  review (p_hash pf) x a = Some la -> review (p_hash pf) x b = Some lb ->
  look_alike pf x (enc_v1 a) (enc_v1 b) -> same_contract x i j /\ e = f.
Proof. exact v1_calls_alike. Qed.
Print Assumptions C52_v1_calls_partial.

(** Entry points "mint\0A" and "mint\0B", in both formats. *)
Theorem C52_names_refuted :
  exists pf c d ea eb ta tb, hash32 (p_hash pf) /\ ea <> eb /\
    (d_session c = Stored (ByHash ta) ea [arg_note 65] /\ d_session d = Stored (ByHash ta) eb [arg_note 65]) /\
    d_hash c = p_hash pf (enc_header (d_header c)) /\ d_hash d = p_hash pf (enc_header (d_header d)) /\
    bytes (enc_tx c) /\ bytes (enc_tx d) /\
    look_alike pf true (enc_tx c) (enc_tx d) /\
    exists a b, sealed (p_hash pf) a /\ sealed (p_hash pf) b /\
      x_target (x_payload a) = XStored (ByHash tb) VmV1 /\ x_target (x_payload b) = XStored (ByHash tb) VmV1 /\
      x_entry (x_payload a) = Custom ea /\ x_entry (x_payload b) = Custom eb /\
      look_alike pf true (enc_v1 a) (enc_v1 b).
Proof. exact names_refuted. Qed.
Print Assumptions C52_names_refuted.

(** ** C53  The value shown for an argument comes from that argument *)
(** Wherever it lies, a value that its type describes ([arg_view]) is shown by
    the same text.  Missing for the full claim: values of another size. *)
Theorem C53_display_partial :
  forall ty val v e e' o o', wf e -> wf e' -> hash e = hash e' -> timefmt e = timefmt e' ->
  at_ e o (val ++ enc_type ty) -> at_ e' o' (val ++ enc_type ty) -> arg_view ty val = Some v ->
  exists d, fst (display_runtimeArg (tag ty) (zlen val) e o) = Ret d /\ fst (display_runtimeArg (tag ty) (zlen val) e' o') = Ret d.
Proof. exact display_local. Qed.
Print Assumptions C53_display_partial.
(** Two transactions with the same operation and the same argument [name] show
    the same item for it, whatever the other arguments. *)
Theorem C53_v1_items_partial :
  forall pf x t t' n la la' l l' label name a w, hash32 (p_hash pf) ->
  good_transaction (p_hash pf) t -> good_transaction (p_hash pf) t' ->
  xexpert_ok x (p_time pf) (x_payload t) -> xexpert_ok x (p_time pf) (x_payload t') ->
  before_args t < 256 -> before_args t' < 256 ->
  review (p_hash pf) x t = Some la -> review (p_hash pf) x t' = Some la' ->
  x_entry (x_payload t) = Op n -> x_entry (x_payload t') = Op n ->
  x_args (x_payload t) = Named l -> x_args (x_payload t') = Named l' ->
  In (label, name) (op_shown x n) -> find_arg (text name) l = Some a -> find_arg (text name) l' = Some a -> op_view name a = Some w ->
  exists v v' i j it, tx_parse pf x (enc_v1 t) = Ret v /\ tx_parse pf x (enc_v1 t') = Ret v' /\ ikey it = text label /\
    0 <= i < getNumItems x v /\ 0 <= j < getNumItems x v' /\ tx_getItem pf x 40 (enc_v1 t) v i = Ret it /\ tx_getItem pf x 40 (enc_v1 t') v' j = Ret it.
Proof. exact op_items_same. Qed.
Print Assumptions C53_v1_items_partial.
Example C53_case :
  let a := [arg_id; arg_target; arg_amount] in let b := [arg_target; arg_source; arg_amount; arg_id] in
  v1_hyps true (t_order a) /\ v1_hyps true (t_order b) /\
  (exists la, review (p_hash demo) true (t_order a) = Some la) /\ (exists lb, review (p_hash demo) true (t_order b) = Some lb) /\
  find_arg (text "target") a = Some arg_target /\ find_arg (text "target") b = Some arg_target /\
  op_view "target" arg_target = Some (KeyText 1 (repeat 34 32)).
Proof. exact order_case. Qed.

(** A target of one byte: the next argument completes it on screen. *)
Theorem C53_neighbour_refuted :
  exists pf la lb a b va vb ia ib, hash32 (p_hash pf) /\ good_deploy (p_hash pf) a /\ good_deploy (p_hash pf) b /\
    d_session a = SD.Transfer la /\ d_session b = SD.Transfer lb /\ (forall y, In y la <-> In y lb) /\
    find_arg (text "target") la = Some stub /\ find_arg (text "target") lb = Some stub /\
    tx_parse pf false (enc_tx a) = Ret va /\ tx_parse pf false (enc_tx b) = Ret vb /\
    tx_getItem pf false 40 (enc_tx a) va 5 = Ret ia /\ tx_getItem pf false 40 (enc_tx b) vb 5 = Ret ib /\
    ikey ia = text "Target" /\ ikey ib = text "Target" /\ ival ia <> ival ib.
Proof. exact neighbour_refuted. Qed.
Print Assumptions C53_neighbour_refuted.
