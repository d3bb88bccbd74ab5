(** Both modes: a call without a review in the specification, a transfer with
    too many arguments. *)
From Verif Require Import Base Zxlib Crypto Utils RuntimeArg Deploy DeployUI TxV1 TxV1UI Parser App BaseFacts Spec SpecText SpecDeploy SpecTx SpecLayout SpecRaw SpecForm SpecShow SpecHead SpecApp Exec Demo Shows ReviewFacts WitDeploy WitTx TxShow TxReview FormFacts FormReview FormAccept WitApp WitSess WitBind WitForm WitShow WitExact WitLook WitRaw WitMore FormArgs FormSign WitSign.
Import S SX SL SR SF SW SH.

(** A call of version 7 of a contract, by an entry point with a NUL in its
    name. *)
Definition murky_of (h : list Z) : form :=
  Form h alice 1700000000000 1800000 (text "casper") (PClassic 2500000000 2 1) (ARaw [9; 9]) (XStored (SD.ByHashV (repeat 5 32) (Some 7)) VmV1) (Custom [103; 0; 111]) [demo_approved].
Definition murky : form := murky_of (demo_hash (form_payload (right_numbers 3 (murky_of (repeat 0 32))) (murky_of (repeat 0 32)))).
Definition murky_numbers : numbers := right_numbers 3 murky.
Definition murky_data : list Z := form_bytes murky_numbers murky.
Lemma murky_ok : form_ok murky.
Proof.
  constructor; cbn [murky murky_of f_hash f_initiator f_time f_ttl f_price f_args f_target f_entry f_approvals]; try lia.
  - apply (proj1 (demo_hash32 _)).
  - right. left. split; reflexivity.
  - cbn. lia.
  - exact Logic.I.
  - split; [split; [reflexivity|cbn; lia]|exact Logic.I].
  - reflexivity.
  - constructor; [|constructor]. split; [right; left; split; reflexivity|]. split; [left; reflexivity|reflexivity].
Qed.
Lemma murky_begins : begins murky_data murky_numbers murky.
Proof. unfold murky_data. rewrite <- (app_nil_r (form_bytes _ _)). apply begins_of; [exact murky_ok|apply right_ok; [unfold word; lia|vm_compute; reflexivity]]. Qed.
Lemma murky_accepted : exists v, tx_parse demo true (1 :: murky_data) = Ret (TV1 v) /\ num_runtime_args (targs v) < 240 /\ entity_version (ttarget v) = 7.
Proof. eexists. split; [vm_compute; reflexivity|]. split; vm_compute; reflexivity. Qed.
Lemma modes_form_case : exists data k u v, bytes data /\ zlen data < 65472 /\ begins data k u /\ tx_parse demo true (1 :: data) = Ret (TV1 v) /\ few_args u /\ version_known true (f_target u) /\
  num_runtime_args (targs v) < 240 /\ entity_version (ttarget v) <> NO_ENTITY_VERSION_PRESENT /\ forall t, depicts k u data t -> ~ presentable t.
Proof.
  destruct murky_accepted as (v & T & N & V). exists murky_data, murky_numbers, murky, v. split; [apply bytesb_ok; vm_compute; reflexivity|]. split; [vm_compute; reflexivity|].
  split; [exact murky_begins|]. split; [exact T|]. split; [exact Logic.I|]. split; [intros _; split; intros E; vm_compute in E; discriminate E|].
  split; [exact N|]. split; [rewrite V; discriminate|]. intros t D P. pose proof (pr_entry _ P) as E. rewrite (de_entry _ _ _ _ D) in E. destruct E as [_ E]. apply E. right. left. reflexivity.
Qed.

(** A transfer with 246 further arguments: 259 items, counted as 3. *)
Definition t_much : transaction := mkx alice "casper" classic (Named (native_args NTransfer ++ repeat (Arg [97] [] (Prim 0)) 246)) Native (Op NTransfer).
Lemma modes_long_refuted :
  exists pf t w v, hash32 (p_hash pf) /\ good_transaction (p_hash pf) t /\ xexpert_ok true (p_time pf) (x_payload t) /\ before_args t < 256 /\
    tx_parse pf false (enc_v1 t) = Ret w /\ tx_parse pf true (enc_v1 t) = Ret v /\
    (exists i it, 0 <= i < getNumItems false w /\ tx_getItem pf false 40 (enc_v1 t) w i = Ret it /\ ikey it = text "Amount") /\
    forall k it, 0 <= k < getNumItems true v -> tx_getItem pf true 40 (enc_v1 t) v k = Ret it -> ikey it <> text "Amount".
Proof.
  exists demo, t_much. eexists _, _. split; [exact demo_hash32|]. split; [v1_good|].
  split; [apply v1_expert; reflexivity|]. split; [vm_compute; reflexivity|]. split; [vm_compute; reflexivity|]. split; [vm_compute; reflexivity|].
  split; [exists 5; eexists; split; [vm_compute; split; [discriminate | reflexivity]|]; split; vm_compute; reflexivity|].
  intros k it K. cbn [getNumItems numItems] in K.
  assert (D : exists n, (n < 3)%nat /\ k = Z.of_nat n) by (exists (Z.to_nat k); lia). destruct D as (n & L & ->). clear K. revert it.
  do 3 (destruct n as [|n]; [intros it E; vm_compute in E; injection E as <-; vm_compute; discriminate|]). lia.
Qed.
