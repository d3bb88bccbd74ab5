(** Witnesses about undefined behaviour and about the layout. *)
From Verif Require Import Base Zxlib Crypto Utils RuntimeArg Deploy DeployUI TxV1 TxV1UI Parser BaseFacts Spec SpecText SpecDeploy SpecTx SpecLayout Exec ArgsFacts ReaderFacts TextFacts Shows DeployArgs SessionFacts ReviewFacts Demo DeployCases WitDeploy TxFacts TxBody TxShow TxReview BindCases WitBind WitTx.
Import S ST SD SX SL.

Definition undef_with {A} (u : ub) (o : outcome A) : bool :=
  match o, u with Undef OobRead, OobRead | Undef OobWrite, OobWrite => true | _, _ => false end.
Lemma undef_ok {A} u (o : outcome A) : undef_with u o = true -> o = Undef u.
Proof. destruct o as [| |[]], u; try discriminate; reflexivity. Qed.

(** a module with an argument "auction" that is not a string *)
Definition d_auction (n : Z) := mk (Module [0; 97; 115; 109] [Arg (text "auction") (le 4 n) (Prim 10)]).
(** a transfer whose target is a key of 150 bytes *)
Definition d_target := mk (SD.Transfer [arg_id; Arg (text "target") (repeat 34 150) (Prim 11); arg_amount]).
(** a module of 33 bytes *)
Definition d_code := mk (Module (repeat 1 33) [arg_note 3]).

(** C29: a well-formed deploy, with more approvals; well-formed deploys *)
Lemma approvals_refuted :
  exists pf d more, hash32 (p_hash pf) /\ good_deploy (p_hash pf) d /\ Forall good_approval more /\ zlen more = 101 /\
    forall x, accepted pf x (enc_tx d) /\
      parser_parse pf x (enc_tx (SD.Deploy (d_header d) (d_hash d) (d_payment d) (d_session d) more)) = Undef OobWrite.
Proof.
  exists demo, (mk (Module [0; 97; 115; 109] [arg_note 3])), (repeat (Approval 1 demo_key (repeat 9 64)) 101).
  split; [exact demo_hash32|]. split; [good_by|].
  split; [apply Forall_forall; intros a I; apply repeat_spec in I; subst a; repeat split; auto|]. split; [reflexivity|].
  intros x. split; [apply taken_ok | apply undef_ok]; destruct x; vm_compute; reflexivity.
Qed.
Lemma auction_refuted :
  exists pf d, hash32 (p_hash pf) /\ good_deploy (p_hash pf) d /\ forall x, parser_parse pf x (enc_tx d) = Undef OobRead.
Proof.
  exists demo, (d_auction (2 ^ 32 - 1)). split; [exact demo_hash32|]. split; [good_by|].
  intros x. apply undef_ok. destruct x; vm_compute; reflexivity.
Qed.
(** C30: parsed, and overflowing a buffer when displayed *)
Lemma key_refuted :
  exists pf d, hash32 (p_hash pf) /\ good_deploy (p_hash pf) d /\
    forall x, (exists v, parser_parse pf x (enc_tx d) = Ret v) /\ tx_parse pf x (enc_tx d) = Undef OobWrite.
Proof.
  exists demo, d_target. split; [exact demo_hash32|]. split; [good_by|].
  intros x. split; [apply taken_ok | apply undef_ok]; destruct x; vm_compute; reflexivity.
Qed.
Lemma code_refuted :
  exists pf d w args, hash32 (p_hash pf) /\ d_session d = Module w args /\ zlen w = 33 /\ Forall good_arg args /\
    good_header (d_header d) /\ d_hash d = p_hash pf (enc_header (d_header d)) /\ h_bodyhash (d_header d) = p_hash pf (enc_body d) /\
    bytes (enc_tx d) /\ zlen (enc_tx d) < 65536 /\
    forall x, (exists v, parser_parse pf x (enc_tx d) = Ret v) /\ tx_parse pf x (enc_tx d) = Undef OobWrite.
Proof.
  exists demo, d_code, (repeat 1 33), [arg_note 3]. split; [exact demo_hash32|]. split; [reflexivity|]. split; [reflexivity|].
  assert (G : good_deploy (p_hash demo) (mk (Module (repeat 1 32) [arg_note 3]))) by good_by.
  split; [|split; [|split; [|split; [|split; [|split; [vm_compute; reflexivity|]]]]]].
  - pose proof (gd_session _ _ G) as X. exact (proj1 X).
  - pose proof (gd_header _ _ G) as X. destruct X. constructor; auto.
  - vm_compute. reflexivity.
  - vm_compute. reflexivity.
  - apply bytesb_ok. vm_compute. reflexivity.
  - intros x. split; [apply taken_ok | apply undef_ok]; destruct x; vm_compute; reflexivity.
Qed.
(** 97 bytes whose header is said to be 65505 bytes long *)
Definition short_inner := enc_payment (Payment [] [1]) ++ enc_session (Stored (ByHash (repeat 7 32)) [120] []).
Definition short_bytes := [1] ++ short_inner ++ repeat 0 20 ++ le 4 0 ++ le 4 65408.
Lemma header_refuted :
  exists pf data, hash32 (p_hash pf) /\ bytes data /\ zlen data = 97 /\
    forall x, (exists v, parser_parse pf x (0 :: data) = Ret (TDeploy v) /\ header_length_deploy (dheader v) = 65505) /\
      tx_parse pf x (0 :: data) = Undef OobRead.
Proof.
  exists demo, short_bytes. split; [exact demo_hash32|]. split; [apply bytesb_ok; vm_compute; reflexivity|]. split; [vm_compute; reflexivity|].
  intros x. split; [|apply undef_ok; destruct x; vm_compute; reflexivity].
  destruct x; eexists; (split; [vm_compute; reflexivity | reflexivity]).
Qed.

(** concrete bytes with the tables of a TransactionV1 *)
Lemma tables_case n : exists data v, 1 :: data = enc_v1 (t_native n) /\ bytes data /\ zlen data < 65535 /\ tx_parse demo true (1 :: data) = Ret (TV1 v) /\
  0 < getNumItems true (TV1 v).
Proof.
  exists (enc_transaction (t_native n)). destruct n; eexists; (split; [reflexivity|]); (split; [apply bytesb_ok; vm_compute; reflexivity|]);
  (split; [vm_compute; reflexivity|]); (split; [vm_compute; reflexivity|]); vm_compute; reflexivity.
Qed.

(** C12: the table of a stored contract may give a wrong offset and a wrong size *)
Lemma target_size_refuted :
  exists pf t i r pre fields post, hash32 (p_hash pf) /\ good_transaction (p_hash pf) t /\ x_target (x_payload t) = XStored i r /\
    enc_payload (x_payload t) = pre ++ raw_head 3 [0; 1; 54] 69 ++ fields ++ le 2 2 ++ post /\ zlen fields = 69 /\
    let p2 := pre ++ raw_head 3 [0; 1; 1234] 4321 ++ fields ++ le 2 2 ++ post in
    accepted pf true (1 :: table [p_hash pf p2; p2; SX.enc_approvals (x_approvals t)]).
Proof.
  exists demo, (t_call (ByHash (repeat 8 32)) (Named [])).
  pose (p := enc_payload (x_payload (t_call (ByHash (repeat 8 32)) (Named [])))).
  eexists _, _, (firstn 188 p), (firstn 69 (skipn 214 p)), (skipn 285 p).
  split; [exact demo_hash32|]. split; [v1_good|]. split; [reflexivity|]. split; [vm_compute; reflexivity|]. split; [vm_compute; reflexivity|].
  apply taken_ok. vm_compute. reflexivity.
Qed.
