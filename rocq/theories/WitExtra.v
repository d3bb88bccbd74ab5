(** Concrete cases for the later properties. *)
From Verif Require Import Base Zxlib Crypto Utils RuntimeArg Deploy DeployUI TxV1 TxV1UI Parser BaseFacts Spec SpecText SpecDeploy SpecTx SpecLook Exec ArgsFacts ReaderFacts TextFacts Shows DeployArgs SessionFacts ReviewFacts Demo DeployCases WitDeploy WitBind TxFacts TxBody TxShow TxReview TxClaims WitTx LookFacts LookTx WitLook LookMore ModeItems ModeTx.
Import S ST SD SK.

(** Plain payment and payment code. *)
Lemma payment_case x :
  let a := mk_pay [] in let b := mk_pay [0; 97; 115; 109; 1; 0; 0; 0] in
  good_deploy (p_hash demo) a /\ good_deploy (p_hash demo) b /\
  expert_ok x (p_time demo) (d_header a) /\ expert_ok x (p_time demo) (d_header b) /\
  (exists la, SD.review (p_hash demo) x a = Some la) /\ d_session a = d_session b /\ same_context (p_time demo) x a b /\
  p_code (d_payment a) = [] /\ p_code (d_payment b) <> [].
Proof.
  cbv zeta. split; [good_by|]. split; [good_by|]. split; [apply demo_expert; reflexivity|]. split; [apply demo_expert; reflexivity|].
  split; [destruct x; eexists; vm_compute; reflexivity|]. split; [reflexivity|].
  split; [constructor; try (repeat split; reflexivity); intros _; repeat split; reflexivity|]. split; [reflexivity | discriminate].
Qed.
Lemma versions_case :
  let a := call_version (Some 1) in let b := call_version (Some 2) in
  good_deploy (p_hash demo) a /\ good_deploy (p_hash demo) b /\
  expert_ok true (p_time demo) (d_header a) /\ expert_ok true (p_time demo) (d_header b) /\
  (exists la, SD.review (p_hash demo) true a = Some la) /\ (exists lb, SD.review (p_hash demo) true b = Some lb).
Proof.
  cbv zeta. split; [good_by|]. split; [good_by|]. split; [apply demo_expert; reflexivity|]. split; [apply demo_expert; reflexivity|].
  split; eexists; vm_compute; reflexivity.
Qed.

(** Module code with an "auction" argument, and a first argument without name:
    the value [n] is covered by no screen. *)
Definition nameless op n := mk (Module [0; 97; 115; 109] [Arg [] [n] (Prim 3); Arg (text "auction") (lv (text op)) (Prim 10)]).
Lemma module_hash_refuted :
  exists pf w l1 l2 d1 d2, hash32 (p_hash pf) /\ lookalikes pf d1 d2 /\
    d_session d1 = Module w l1 /\ d_session d2 = Module w l2 /\
    p_hash pf (enc_args l1) <> p_hash pf (enc_args l2) /\
    existsb (is_key "Args hash") (all_items pf true (enc_tx d1)) = true.
Proof.
  eexists demo, _, _, _, (nameless "bid" 1), (nameless "bid" 2).
  split; [exact demo_hash32|]. split; [alike|]. split; [reflexivity|]. split; [reflexivity|]. split; [vm_compute; discriminate | vm_compute; reflexivity].
Qed.

(** Deploys accepted in expert mode: a transfer with four arguments, one
    without name, a delegation, a call, and one with unnamed screens. *)
Definition kinds := [mk (SD.Transfer [arg_amount; arg_target; arg_id; Arg (text "source") (repeat 34 32 ++ [7]) (Prim 12)]);
  transfer_to 1; delegate_with 1; d_call; d_undelegate; nameless "delegate" 1].
Lemma modes_case d : In d kinds ->
  let data := enc_deploy d in enc_tx d = 0 :: data /\ bytes data /\ zlen data < 65535 /\ exists v, tx_parse demo true (0 :: data) = Ret (TDeploy v).
Proof.
  intros I. cbn [kinds In] in I. repeat destruct I as [<-|I]; try contradiction; (split; [reflexivity|]; apply raw_ok_ok; vm_compute; reflexivity).
Qed.
(** ... the last one: two items in normal mode that show nothing. *)
Lemma unnamed_case :
  exists v, tx_parse demo false (enc_tx (nameless "delegate" 1)) = Ret v /\
    tx_getItem demo false 40 (enc_tx (nameless "delegate" 1)) v 5 = Ret question /\ tx_getItem demo false 40 (enc_tx (nameless "delegate" 1)) v 6 = Ret question.
Proof. eexists. split; [vm_compute; reflexivity|]. split; vm_compute; reflexivity. Qed.

(** A call of a versioned contract without version. *)
Lemma modes_refuted :
  exists pf t w v, hash32 (p_hash pf) /\ SX.good_transaction (p_hash pf) t /\ xexpert_ok true (p_time pf) (SX.x_payload t) /\ SX.before_args t < 256 /\
    tx_parse pf false (SX.enc_v1 t) = Ret w /\ tx_parse pf true (SX.enc_v1 t) = Ret v /\
    (exists i it, 0 <= i < getNumItems false w /\ tx_getItem pf false 40 (SX.enc_v1 t) w i = Ret it /\ ikey it = text "Args hash") /\
    forall k it, 0 <= k < getNumItems true v -> tx_getItem pf true 40 (SX.enc_v1 t) v k = Ret it -> ikey it <> text "Args hash".
Proof.
  exists demo, t_nover. eexists _, _. split; [exact demo_hash32|]. split; [v1_good|].
  split; [apply v1_expert; reflexivity|]. split; [vm_compute; reflexivity|]. split; [vm_compute; reflexivity|]. split; [vm_compute; reflexivity|].
  split; [exists 7; eexists; split; [vm_compute; split; [discriminate | reflexivity]|]; split; vm_compute; reflexivity|].
  intros k it K. cbn [getNumItems numItems] in K.
  assert (D : exists n, (n < 13)%nat /\ k = Z.of_nat n) by (exists (Z.to_nat k); lia). destruct D as (n & L & ->). clear K. revert it.
  do 13 (destruct n as [|n]; [intros it E; vm_compute in E; injection E as <-; vm_compute; discriminate|]). lia.
Qed.
Lemma modes_v1_case t : In t (t_native SX.NTransfer :: t_native SX.NAddReservations :: t_calls) ->
  SX.good_transaction (p_hash demo) t /\ (exists lines, SX.review (p_hash demo) true t = Some lines) /\
  xexpert_ok true (p_time demo) (SX.x_payload t) /\ SX.before_args t < 256.
Proof.
  intros I. cbn [t_calls In] in I. repeat destruct I as [<-|I]; try contradiction;
    (split; [v1_good|]; split; [apply is_some_ok; vm_compute; reflexivity|]; split; [apply v1_expert; reflexivity | vm_compute; reflexivity]).
Qed.
