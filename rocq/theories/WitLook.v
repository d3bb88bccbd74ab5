(** Pairs of transactions that look alike. *)
From Verif Require Import Base Zxlib Crypto Utils RuntimeArg Deploy DeployUI TxV1 TxV1UI Parser BaseFacts Spec SpecText SpecDeploy SpecTx SpecLook Exec ArgsFacts ReaderFacts TextFacts Shows DeployArgs SessionFacts ReviewFacts Demo DeployCases WitDeploy TxFacts TxBody TxShow TxReview TxClaims WitTx LookFacts LookTx.
Import S ST SD SX SK.

(** * Comparing two concrete transactions *)
Definition alike_check (pf : platform) (x : bool) (da db : list Z) : Prop :=
  match tx_parse pf x da, tx_parse pf x db with
  | Ret ta, Ret tb =>
      getNumItems x ta = getNumItems x tb /\
      shown pf x da ta 1 (Z.to_nat (getNumItems x ta - 1)) = shown pf x db tb 1 (Z.to_nat (getNumItems x ta - 1))
  | _, _ => False
  end.
Lemma shown_nth pf x d t n : forall i k, (k < n)%nat -> nth_error (shown pf x d t i n) k = Some (tx_getItem pf x 40 d t (i + Z.of_nat k)).
Proof.
  induction n as [|n IH]; intros i k L; [lia|]. cbn [shown]. destruct k as [|k].
  - rewrite Z.add_0_r. reflexivity.
  - cbn [nth_error]. rewrite IH by lia. do 2 f_equal. lia.
Qed.
Lemma alike_ok pf x da db : alike_check pf x da db -> look_alike pf x da db.
Proof.
  unfold alike_check. destruct (tx_parse pf x da) as [ta| |] eqn:A; try contradiction. destruct (tx_parse pf x db) as [tb| |] eqn:B; try contradiction.
  intros [N E]. exists ta, tb. split; [exact A|]. split; [exact B|]. split; [exact N|]. intros i Hi.
  apply (f_equal (fun l => nth_error l (Z.to_nat (i - 1)))) in E. rewrite !shown_nth in E by lia.
  replace (1 + Z.of_nat (Z.to_nat (i - 1))) with i in E by lia. congruence.
Qed.
Ltac compare := apply alike_ok; vm_compute; split; reflexivity.

(** * Cases for C46 *)
(** Two transfers that differ in the id only. *)
Definition transfer_id (n : Z) := mk (SD.Transfer [Arg (text "id") (1 :: le 8 n) (COption (Prim 5)); arg_target; arg_amount]).
Ltac carry := eexists; split; [vm_compute; reflexivity|]; split; vm_compute; reflexivity.
Lemma transfer_pair :
  let d1 := transfer_id 1 in let d2 := transfer_id 2 in
  good_deploy (p_hash demo) d1 /\ good_deploy (p_hash demo) d2 /\
  expert_ok false (p_time demo) (d_header d1) /\ expert_ok false (p_time demo) (d_header d2) /\
  transfers d1 None (KeyText 1 (repeat 34 32)) (Motes 705032704) (Number 1) /\
  transfers d2 None (KeyText 1 (repeat 34 32)) (Motes 705032704) (Number 2) /\
  look_alike demo false (enc_tx d1) (enc_tx d2).
Proof.
  cbv zeta. split; [good_by|]. split; [good_by|]. split; [apply demo_expert; reflexivity|]. split; [apply demo_expert; reflexivity|].
  split; [|split; [|compare]]; (constructor; eexists; split; [reflexivity|]; split; [reflexivity|]; split; [carry|]; split; [carry|]; split; [carry | exact I]).
Qed.
(** Delegation by a contract, and by module code. *)
Definition by_contract := mk (Stored (ByHash (repeat 8 32)) (text "delegate") [arg_amount; arg_validator; arg_delegator]).
Definition by_module := mk (Module [0; 97; 115; 109] [arg_amount; arg_validator; arg_delegator; Arg (text "auction") (lv (text "delegate")) (Prim 10)]).
Lemma delegation_pair :
  good_deploy (p_hash demo) by_contract /\ good_deploy (p_hash demo) by_module /\
  (forall d, expert_ok false (p_time demo) (d_header d)) /\
  delegates by_contract ODelegate (KeyText 1 demo_key) (KeyText 2 (repeat 5 33)) (Words []) (Motes 705032704) /\
  delegates by_module ODelegate (KeyText 1 demo_key) (KeyText 2 (repeat 5 33)) (Words []) (Motes 705032704) /\
  look_alike demo false (enc_tx by_contract) (enc_tx by_module).
Proof.
  split; [good_by|]. split; [good_by|]. split; [intros d X; discriminate X|]. split; [|split; [|compare]].
  - eapply ByContract; [reflexivity | reflexivity | reflexivity |]. split; [carry|]. split; [carry|]. split; [discriminate | carry].
  - eapply ByModule; [reflexivity | vm_compute; reflexivity | vm_compute; reflexivity |]. split; [carry|]. split; [carry|]. split; [discriminate | carry].
Qed.

(** * TransactionV1 *)
Definition later (t : transaction) (n : Z) : transaction :=
  let p := x_payload t in
  seal_v1 demo_hash (Payload (x_initiator p) (x_time p + n) (x_ttl p) (x_chain p) (x_pricing p) (x_args p) (x_target p) (x_entry p)) demo_appr.
Definition v1_hyps (x : bool) (t : transaction) : Prop :=
  good_transaction (p_hash demo) t /\ xexpert_ok x (p_time demo) (x_payload t) /\ before_args t < 256.
Ltac hyps := split; [v1_good|]; split; [apply v1_expert; reflexivity | vm_compute; reflexivity].
(** A transaction and the same one five seconds later. *)
Lemma v1_pair t : In t (t_native NTransfer :: t_native NAddReservations :: t_calls) ->
  v1_hyps false t /\ v1_hyps false (later t 5000) /\
  (exists la, review (p_hash demo) false t = Some la) /\ (exists lb, review (p_hash demo) false (later t 5000) = Some lb) /\
  look_alike demo false (enc_v1 t) (enc_v1 (later t 5000)).
Proof.
  intros I. cbn [t_calls In] in I. repeat destruct I as [<-|I]; try contradiction;
    (split; [hyps|]; split; [hyps|]; split; [apply is_some_ok; vm_compute; reflexivity|]; split; [apply is_some_ok; vm_compute; reflexivity|]; compare).
Qed.

(** The time to live is shown in seconds. *)
Definition ttl_deploy (n : Z) := seal demo_hash 1 demo_key 1700000000000 n 1 [repeat 3 32] (text "casper") demo_pay (SD.Transfer [arg_id; arg_target; arg_amount]) demo_appr.
Definition ttl_tx (n : Z) : transaction :=
  seal_v1 demo_hash (Payload alice 1700000000000 n (text "casper") classic (Named [arg_id; arg_target; arg_amount]) Native (Op NTransfer)) demo_appr.
Lemma ttl_refuted :
  exists pf a b c d, hash32 (p_hash pf) /\ good_deploy (p_hash pf) a /\ good_deploy (p_hash pf) b /\
    h_ttl (d_header a) <> h_ttl (d_header b) /\ look_alike pf true (enc_tx a) (enc_tx b) /\
    good_transaction (p_hash pf) c /\ good_transaction (p_hash pf) d /\
    x_ttl (x_payload c) <> x_ttl (x_payload d) /\ look_alike pf true (enc_v1 c) (enc_v1 d).
Proof.
  exists demo, (ttl_deploy 1800000), (ttl_deploy 1800999), (ttl_tx 1800000), (ttl_tx 1800999).
  split; [exact demo_hash32|]. split; [good_by|]. split; [good_by|]. split; [discriminate|]. split; [compare|].
  split; [v1_good|]. split; [v1_good|]. split; [discriminate | compare].
Qed.
(** Addresses 1, 11, 7, 7, ... and 11, 1, 7, 7, ... *)
Definition addr_call (a : list Z) := t_call (ByHash a) (Named [arg_amount]).
Lemma address_refuted :
  exists pf a b h k r, hash32 (p_hash pf) /\ good_transaction (p_hash pf) a /\ good_transaction (p_hash pf) b /\
    x_target (x_payload a) = XStored (ByHash h) r /\ x_target (x_payload b) = XStored (ByHash k) r /\ h <> k /\
    look_alike pf true (enc_v1 a) (enc_v1 b).
Proof.
  exists demo, (addr_call (1 :: 11 :: repeat 7 30)), (addr_call (11 :: 1 :: repeat 7 30)). eexists _, _, _.
  split; [exact demo_hash32|]. split; [v1_good|]. split; [v1_good|]. split; [reflexivity|]. split; [reflexivity|]. split; [discriminate | compare].
Qed.

(** C48 *)
Definition t_priced (q : pricing) := mkx alice "casper" q (Named [arg_id; arg_target; arg_amount]) Native (Op NTransfer).
Lemma priced_hyps x q : In q [Classic 1 1 true; Classic 999999999999 9 false; Fixed 3 1; Fixed 3 200; Classic 1 1 false] -> v1_hyps x (t_priced q).
Proof. intros I. cbn [In] in I. repeat destruct I as [<-|I]; try contradiction; hyps. Qed.
Lemma pricing_refuted :
  (exists pf a b, hash32 (p_hash pf) /\ good_transaction (p_hash pf) a /\ good_transaction (p_hash pf) b /\
     (exists m g s n h u, x_pricing (x_payload a) = Classic m g s /\ x_pricing (x_payload b) = Classic n h u /\ m <> n /\ g <> h) /\
     look_alike pf false (enc_v1 a) (enc_v1 b)) /\
  (exists pf a b, hash32 (p_hash pf) /\ good_transaction (p_hash pf) a /\ good_transaction (p_hash pf) b /\
     (exists g f k, x_pricing (x_payload a) = Fixed g f /\ x_pricing (x_payload b) = Fixed g k /\ f <> k) /\
     look_alike pf true (enc_v1 a) (enc_v1 b)) /\
  (exists pf a b, hash32 (p_hash pf) /\ good_transaction (p_hash pf) a /\ good_transaction (p_hash pf) b /\
     (exists m g, x_pricing (x_payload a) = Classic m g true /\ x_pricing (x_payload b) = Classic m g false) /\
     look_alike pf true (enc_v1 a) (enc_v1 b)).
Proof.
  split; [|split].
  - exists demo, (t_priced (Classic 1 1 true)), (t_priced (Classic 999999999999 9 false)). split; [exact demo_hash32|]. split; [v1_good|]. split; [v1_good|].
    split; [do 6 eexists; split; [reflexivity|]; split; [reflexivity|]; split; discriminate | compare].
  - exists demo, (t_priced (Fixed 3 1)), (t_priced (Fixed 3 200)). split; [exact demo_hash32|]. split; [v1_good|]. split; [v1_good|].
    split; [do 3 eexists; split; [reflexivity|]; split; [reflexivity | discriminate] | compare].
  - exists demo, (t_priced (Classic 1 1 true)), (t_priced (Classic 1 1 false)). split; [exact demo_hash32|]. split; [v1_good|]. split; [v1_good|].
    split; [do 2 eexists; split; reflexivity | compare].
Qed.
Lemma priced_case : exists la, review (p_hash demo) true (t_priced (Fixed 3 1)) = Some la /\
  x_payload (t_priced (Fixed 3 200)) = reprice (x_payload (t_priced (Fixed 3 1))) (Fixed 3 200).
Proof. destruct (is_some_ok (review (p_hash demo) true (t_priced (Fixed 3 1)))) as (la & E); [vm_compute; reflexivity|]. exists la. split; [exact E | reflexivity]. Qed.

(** C49, C50 *)
Definition some_code : list Z := [0; 97; 115; 109; 1; 0; 0; 0].
Definition t_code (w : list Z) (a : args) (e : entry) := mkx alice "casper" classic a (Session false VmV1 w) e.
Definition transfer_args := Named [arg_id; arg_target; arg_amount].
Lemma code_hyps x e : In e [Call; Custom (text "mint"); Op NTransfer] -> v1_hyps x (t_code some_code transfer_args e).
Proof. intros I. cbn [In] in I. repeat destruct I as [<-|I]; try contradiction; hyps. Qed.
Lemma native_refuted :
  exists pf t w, hash32 (p_hash pf) /\ good_transaction (p_hash pf) t /\ x_target (x_payload t) = Session false VmV1 w /\
    forall x, exists v it, tx_parse pf x (enc_v1 t) = Ret v /\ tx_getItem pf x 40 (enc_v1 t) v 1 = Ret it /\ it = mkItem (text "Type") (VDirect (text "Transfer")).
Proof.
  exists demo, (t_code some_code transfer_args (Op NTransfer)), some_code. split; [exact demo_hash32|]. split; [v1_good|]. split; [reflexivity|].
  intros x. destruct (shown_text_ok demo x (enc_v1 (t_code some_code transfer_args (Op NTransfer))) 1 (text "Type") (VDirect (text "Transfer"))) as (v & [k d] & P & G & K & D);
    [destruct x; vm_compute; reflexivity|]. exists v, (mkItem k d). cbn [ikey ival] in *. subst. auto.
Qed.
Lemma code_case : exists la,
  review (p_hash demo) true (mkx alice "casper" classic transfer_args Native (Op NTransfer)) = Some la /\
  v1_hyps true (mkx alice "casper" classic transfer_args Native (Op NTransfer)) /\
  same_header (mkx alice "casper" classic transfer_args Native (Op NTransfer)) (t_code some_code transfer_args (Op NTransfer)).
Proof.
  destruct (is_some_ok (review (p_hash demo) true (mkx alice "casper" classic transfer_args Native (Op NTransfer)))) as (la & E); [vm_compute; reflexivity|].
  exists la. split; [exact E|]. split; [hyps|]. constructor; reflexivity.
Qed.
Lemma call_case2 x : v1_hyps x (t_code [1] (Named []) Call) /\ v1_hyps x (t_code some_code transfer_args Call) /\
  same_header (t_code [1] (Named []) Call) (t_code some_code transfer_args Call).
Proof. split; [hyps|]. split; [hyps|]. constructor; reflexivity. Qed.

(** C51: chain name and payment as shown, and as they are *)
Lemma chain_refuted :
  exists pf t v c p, hash32 (p_hash pf) /\ sealed (p_hash pf) t /\ tx_parse pf true (enc_v1 t) = Ret v /\
    tx_getItem pf true 40 (enc_v1 t) v 2 = Ret c /\ ikey c = text "Chain ID" /\ ival c = VPaged (text "casper") /\ x_chain (x_payload t) <> text "casper" /\
    tx_getItem pf true 40 (enc_v1 t) v 6 = Ret p /\ ikey p = text "Payment" /\
    exists m g s, x_pricing (x_payload t) = Classic m g s /\ ~ xrenders (p_hash pf) (p_time pf) (Grouped m) (ival p).
Proof.
  exists demo, (t_spoof spoof_args). eexists _, _, _. split; [exact demo_hash32|]. split; [apply check_sealed; vm_compute; reflexivity|].
  split; [vm_compute; reflexivity|]. split; [vm_compute; reflexivity|]. split; [reflexivity|]. split; [reflexivity|]. split; [vm_compute; discriminate|].
  split; [vm_compute; reflexivity|]. split; [reflexivity|]. eexists _, _, _. split; [reflexivity|].
  intros R. assert (R2 : xrenders (p_hash demo) (p_time demo) (Grouped 2500000000) (VPaged (group (dec 2500000000)))).
  { exists (dec 2500000000). split; [apply dec_decimal; lia | reflexivity]. }
  pose proof (xrenders_fun _ _ _ _ _ R R2) as X. vm_compute in X. discriminate X.
Qed.

(** C52: names with a NUL *)
Definition nul_name (c : Z) : list Z := text "mint" ++ [0; c].
Definition nul_call (c : Z) := mkx alice "casper" classic (Named [arg_amount]) (XStored (ByHash (repeat 8 32)) VmV1) (Custom (nul_name c)).
Definition nul_deploy (c : Z) := mk (Stored (ByHash (repeat 8 32)) (nul_name c) [arg_note 65]).
Lemma names_refuted :
  exists pf c d ea eb ta tb, hash32 (p_hash pf) /\ ea <> eb /\
    (d_session c = Stored (ByHash ta) ea [arg_note 65] /\ d_session d = Stored (ByHash ta) eb [arg_note 65]) /\
    d_hash c = p_hash pf (enc_header (d_header c)) /\ d_hash d = p_hash pf (enc_header (d_header d)) /\
    bytes (enc_tx c) /\ bytes (enc_tx d) /\
    look_alike pf true (enc_tx c) (enc_tx d) /\
    exists a b, sealed (p_hash pf) a /\ sealed (p_hash pf) b /\
      x_target (x_payload a) = XStored (ByHash tb) VmV1 /\ x_target (x_payload b) = XStored (ByHash tb) VmV1 /\
      x_entry (x_payload a) = Custom ea /\ x_entry (x_payload b) = Custom eb /\
      look_alike pf true (enc_v1 a) (enc_v1 b).
Proof.
  exists demo, (nul_deploy 65), (nul_deploy 66), (nul_name 65), (nul_name 66), (repeat 8 32), (repeat 8 32).
  split; [exact demo_hash32|]. split; [vm_compute; discriminate|]. split; [split; reflexivity|]. split; [reflexivity|]. split; [reflexivity|].
  split; [apply bytesb_ok; vm_compute; reflexivity|]. split; [apply bytesb_ok; vm_compute; reflexivity|]. split; [compare|].
  exists (nul_call 65), (nul_call 66).
  assert (SE : forall c, In c [65; 66] -> sealed (p_hash demo) (nul_call c)).
  { intros c I. cbn [In] in I. unfold sealed.
    repeat destruct I as [<-|I]; try contradiction; (split; [vm_compute; reflexivity|]; split; [vm_compute; reflexivity|]; split; [apply bytesb_ok; vm_compute; reflexivity|];
      apply Forall_cons; [|constructor]; split; [reflexivity | apply name_b_ok; vm_compute; reflexivity]). }
  split; [apply SE; cbn; auto|]. split; [apply SE; cbn; auto|]. repeat (split; [reflexivity|]). compare.
Qed.
Lemma calls_case :
  let a := mk (Stored (ByName (text "counter")) (text "increment") [arg_note 65]) in
  let b := mk (Stored (ByName (text "counter")) (text "increment") [arg_note 66]) in
  good_deploy (p_hash demo) a /\ good_deploy (p_hash demo) b /\ expert_ok true (p_time demo) (d_header a) /\ expert_ok true (p_time demo) (d_header b) /\
  (exists la, SD.review (p_hash demo) true a = Some la) /\ exists lb, SD.review (p_hash demo) true b = Some lb.
Proof.
  cbv zeta. split; [good_by|]. split; [good_by|]. split; [apply demo_expert; reflexivity|]. split; [apply demo_expert; reflexivity|].
  split; apply is_some_ok; vm_compute; reflexivity.
Qed.

(** C53: a target one byte long *)
Definition stub := Arg (text "target") [1] (Prim 22).
Definition stub_transfer (l : list arg) := mk (SD.Transfer l).
Lemma neighbour_refuted :
  exists pf la lb a b va vb ia ib, hash32 (p_hash pf) /\ good_deploy (p_hash pf) a /\ good_deploy (p_hash pf) b /\
    d_session a = SD.Transfer la /\ d_session b = SD.Transfer lb /\ (forall y, In y la <-> In y lb) /\
    find_arg (text "target") la = Some stub /\ find_arg (text "target") lb = Some stub /\
    tx_parse pf false (enc_tx a) = Ret va /\ tx_parse pf false (enc_tx b) = Ret vb /\
    tx_getItem pf false 40 (enc_tx a) va 5 = Ret ia /\ tx_getItem pf false 40 (enc_tx b) vb 5 = Ret ib /\
    ikey ia = text "Target" /\ ikey ib = text "Target" /\ ival ia <> ival ib.
Proof.
  exists demo, [stub; arg_amount; arg_id], [stub; arg_id; arg_amount], (stub_transfer [stub; arg_amount; arg_id]), (stub_transfer [stub; arg_id; arg_amount]).
  eexists _, _, _, _. split; [exact demo_hash32|]. split; [good_by|]. split; [good_by|]. split; [reflexivity|]. split; [reflexivity|].
  split; [intros y; cbn [In]; tauto|]. split; [reflexivity|]. split; [reflexivity|].
  split; [vm_compute; reflexivity|]. split; [vm_compute; reflexivity|]. split; [vm_compute; reflexivity|]. split; [vm_compute; reflexivity|].
  split; [reflexivity|]. split; [reflexivity|]. vm_compute. discriminate.
Qed.
Definition t_order (l : list arg) := mkx alice "casper" classic (Named l) Native (Op NTransfer).
Lemma order_case :
  let a := [arg_id; arg_target; arg_amount] in let b := [arg_target; arg_source; arg_amount; arg_id] in
  v1_hyps true (t_order a) /\ v1_hyps true (t_order b) /\
  (exists la, review (p_hash demo) true (t_order a) = Some la) /\ (exists lb, review (p_hash demo) true (t_order b) = Some lb) /\
  find_arg (text "target") a = Some arg_target /\ find_arg (text "target") b = Some arg_target /\
  op_view "target" arg_target = Some (KeyText 1 (repeat 34 32)).
Proof.
  cbv zeta. split; [hyps|]. split; [hyps|]. split; [apply is_some_ok; vm_compute; reflexivity|]. split; [apply is_some_ok; vm_compute; reflexivity|].
  split; [reflexivity|]. split; reflexivity.
Qed.
Lemma top_case x : exists v, v1_hyps x (t_code some_code transfer_args Call) /\
  tx_parse demo x (enc_v1 (t_code some_code transfer_args Call)) = Ret v /\ 3 < getNumItems x v.
Proof. destruct x; (eexists; split; [hyps|]; split; vm_compute; reflexivity). Qed.
Lemma sessions_case e : In e [Call; Custom (text "mint"); Op NTransfer] ->
  let a := t_code some_code transfer_args e in let b := t_code [1] transfer_args e in
  v1_hyps true a /\ v1_hyps true b /\ (exists la, bare_review (p_hash demo) true a = Some la) /\
  (exists lb, bare_review (p_hash demo) true b = Some lb) /\ look_alike demo true (enc_v1 a) (enc_v1 b).
Proof.
  intros I. cbv zeta. cbn [In] in I. repeat destruct I as [<-|I]; try contradiction;
    (split; [hyps|]; split; [hyps|]; split; [apply is_some_ok; vm_compute; reflexivity|]; split; [apply is_some_ok; vm_compute; reflexivity|]; compare).
Qed.
Lemma code_refuted :
  exists pf a b r, hash32 (p_hash pf) /\ good_transaction (p_hash pf) a /\ good_transaction (p_hash pf) b /\
    x_target (x_payload a) = Session false r [1] /\ x_target (x_payload b) = Session false r some_code /\
    x_args (x_payload a) = Named [] /\ x_args (x_payload b) = Named [arg_id; arg_target; arg_amount] /\
    look_alike pf true (enc_v1 a) (enc_v1 b).
Proof.
  exists demo, (t_code [1] (Named []) Call), (t_code some_code transfer_args Call), VmV1. split; [exact demo_hash32|]. split; [v1_good|]. split; [v1_good|].
  split; [reflexivity|]. split; [reflexivity|]. split; [reflexivity|]. split; [reflexivity | compare].
Qed.
