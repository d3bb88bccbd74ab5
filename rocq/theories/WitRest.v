(** Concrete cases for properties C61 to C67. *)
From Verif Require Import Base Zxlib Crypto Utils RuntimeArg Deploy DeployUI TxV1 TxV1UI Parser BaseFacts Spec SpecText SpecDeploy SpecTx SpecApp SpecSess Exec ArgsFacts ReaderFacts TextFacts Shows DeployArgs SessionFacts ReviewFacts Demo DeployCases WitDeploy TxFacts TxBody TxShow TxReview TxClaims BindCases WitBind WitTx WitSafe SpecApp App AppFacts AppHist AppClaims AppSign WitApp TxAccept SessFacts SessTx WitSess SessMore SizeFacts AppvFacts.
Import S SD SX.

(** * C61 *)
Lemma message_session_case :
  exists d s tr p cs c rest, device_ok d /\ reach d s tr /\ tr <> [] /\ pending s = None /\ 20 <= zlen p /\ SA.casper_path (SS.words5 p) /\
    List.concat cs ++ c = message_text rest /\ zlen (message_text rest) <= flash_size d /\ deploys_only tr /\ rest <> [].
Proof.
  destruct way_ok as (W1 & _ & W2).
  assert (exists s tr, reach dev s tr /\ tr <> [] /\ pending s = None /\ deploys_only tr) as (s & tr & R & N & P & D).
  { destruct alike_case as (s1 & tr1 & s2 & tr2 & R1 & R2 & P1 & P2 & _ & D1 & D2 & N).
    destruct tr2 as [|y tr2]; [exists s1, tr1; auto|]. exists s2, (y :: tr2). split; [exact R2|]. split; [discriminate|]. auto. }
  exists dev, s, tr, way, [text "Casper "; text "Mess"; []], (text "age:" ++ [10] ++ text "hello"), (text "hello").
  split; [exact dev_ok|]. split; [exact R|]. split; [exact N|]. split; [exact P|]. split; [exact W1|]. split; [exact W2|].
  split; [reflexivity|]. split; [vm_compute; discriminate|]. split; [exact D | discriminate].
Qed.
Lemma message_replaced :
  exists d s tr p c path m, device_ok d /\ reach d s tr /\ pending s = None /\ 20 <= zlen p /\ SA.casper_path (SS.words5 p) /\
    (exists rest, c = message_text rest) /\ zlen c <= flash_size d /\
    signature d s (sends 3 p [] c) = Some (path, m) /\ m <> c.
Proof.
  set (c := prefix ++ repeat 46 11 ++ repeat 1 32).
  assert (F : Forall event_ok (submit 2 (casper 0) v1_wrong)) by (apply events_ok_ok; vm_compute; reflexivity).
  assert (H : ended (fun s _ => (pending s, signature dev s (sends 3 way [] c))) (submit 2 (casper 0) v1_wrong) = Some (None, Some (casper 0, repeat 1 32))) by (vm_compute; reflexivity).
  destruct (ended_ok _ _ _ F H) as (s & tr & R & E). injection E as E1 E2. clear H. destruct way_ok as (W1 & _ & W2).
  exists dev, s, tr, way, c, (casper 0), (repeat 1 32). split; [exact dev_ok|]. split; [exact R|]. split; [exact E1|]. split; [exact W1|]. split; [exact W2|].
  split; [exists (repeat 46 11 ++ repeat 1 32); reflexivity|]. split; [vm_compute; discriminate|]. split; [exact E2 | vm_compute; discriminate].
Qed.

(** * C62 *)
Lemma address_request_case : exists d s tr p key, device_ok d /\ keys_ok d /\ reach d s tr /\ tr <> [] /\ pending s = None /\ 20 <= zlen p /\ SA.casper_path (SS.words5 p) /\
  pubkey d (SS.words5 p) = Some key.
Proof.
  assert (F : Forall event_ok plain_run) by (apply events_ok_ok; vm_compute; reflexivity).
  assert (H : ended (fun s tr => (pending s, match tr with [] => true | _ => false end)) plain_run = Some (None, false)) by (vm_compute; reflexivity).
  destruct (ended_ok _ _ _ F H) as (s & tr & R & E). injection E as E1 E2. clear H. destruct way_ok as (W1 & _ & W2).
  exists dev, s, tr, way. eexists. split; [exact dev_ok|]. split; [exact dev_keys|]. split; [exact R|]. split; [intros ->; discriminate E2|].
  split; [exact E1|]. split; [exact W1|]. split; [exact W2 | reflexivity].
Qed.

(** * C63 *)
Lemma stuck_case : exists d s tr p cs c t, device_ok d /\ reach d s tr /\ pending s <> None /\
  20 <= zlen p /\ SA.casper_path (SS.words5 p) /\ bytes (List.concat cs ++ c) /\ zlen (List.concat cs ++ c) <= flash_size d /\
  tx_parse (plat d) (expert_mode s) (List.concat cs ++ c) = Ret t.
Proof.
  assert (F : Forall event_ok address_run) by (apply events_ok_ok; vm_compute; reflexivity).
  assert (H : ended (fun s _ => (pending s, expert_mode s)) address_run = Some (Some RAddr, false)) by (vm_compute; reflexivity).
  destruct (ended_ok _ _ _ F H) as (s & tr & R & E). injection E as E1 E2. destruct way_ok as (W1 & _ & W2). clear H.
  exists dev, s, tr, way, (firstn 2 (pieces 200 deploy_bytes)), (skipn 400 deploy_bytes). eexists. rewrite E1, E2.
  split; [exact dev_ok|]. split; [exact R|]. split; [discriminate|]. split; [exact W1|]. split; [exact W2|].
  replace (List.concat _ ++ _) with deploy_bytes by (vm_compute; reflexivity).
  split; [apply bytesb_ok; vm_compute; reflexivity|]. split; [vm_compute; discriminate | vm_compute; reflexivity].
Qed.

(** * C64 *)
Definition roomyb (n : Z) (tr : list AppFacts.entry) : bool :=
  forallb (fun x => match fst (fst x) with Apdu bs true => zlen (tx_data (bufs (snd (fst x)))) + zlen (SA.payload bs) <=? n | _ => true end) tr.
Lemma roomyb_ok n tr : roomyb n tr = true -> roomy n tr.
Proof.
  unfold roomyb, roomy. rewrite forallb_forall, Forall_forall. intros H x I. specialize (H x I). destruct x as [[e st] rp]. cbn [fst snd] in *.
  destruct e as [bs [|]| | |]; cbn [room]; auto. intros _ _ _. lia.
Qed.
Lemma sizes_case : exists d r f n es s tr, device_ok d /\ device_ok (resize d r f) /\ n <= flash_size d /\ n <= f /\
  flash_size d <> f /\ ram_size d <> r /\ run d (boot d) es = Ret (s, tr) /\ roomy n tr /\ sigs tr = 2.
Proof.
  destruct (run dev (boot dev) two_run) as [[s tr]| |] eqn:E; [|vm_compute in E; discriminate E..].
  exists dev, 200, 900, 700, two_run, s, tr. split; [exact dev_ok|]. split; [constructor; cbn; try lia; exact demo_hash32|].
  split; [cbn; lia|]. split; [lia|]. split; [cbn; lia|]. split; [cbn; lia|]. split; [exact E|].
  assert (H : match run dev (boot dev) two_run with Ret (s, tr) => roomyb 700 tr && (sigs tr =? 2) | _ => false end = true) by (vm_compute; reflexivity).
  rewrite E in H. apply andb_true_iff in H. destruct H as [H1 H2]. split; [apply roomyb_ok; exact H1 | lia].
Qed.

(** * C66 *)
(** docs/APDUSPEC.md 27-36 *)
Definition documented : list Z := [0x6400; 0x6982; 0x6983; 0x6986; 0x6D00; 0x6E00; 0x6F00; 0x9000].
Lemma undocumented : exists d es s tr data sw e st, device_ok d /\ Forall event_ok es /\ run d (boot d) es = Ret (s, tr) /\
  In (e, st, Status data sw) tr /\ ~ In sw documented.
Proof.
  exists dev, [apdu 2 1 [1; 2; 3]]. eexists _, _, _, _, _, _. split; [exact dev_ok|]. split; [apply events_ok_ok; vm_compute; reflexivity|].
  split; [vm_compute; reflexivity|]. split; [left; reflexivity|]. vm_compute. intuition discriminate.
Qed.

(** * C67 *)
Definition sign_by := [Approval 1 demo_key (repeat 9 64); Approval 2 (2 :: demo_key) (repeat 8 64)].
Definition t_approved : transaction := seal_v1 demo_hash small_payload sign_by.
Definition approved : list Z := tl (enc_v1 t_approved).
Lemma approvals_case : exists v, hash32 (p_hash demo) /\ bytes approved /\ zlen approved < 16384 /\ tx_parse demo true (1 :: approved) = Ret (TV1 v) /\
  9 <= getNumItems true (TV1 v) /\ zlen (x_approvals t_approved) = 2.
Proof.
  eexists. split; [exact demo_hash32|]. split; [apply bytesb_ok; vm_compute; reflexivity|]. split; [vm_compute; reflexivity|].
  split; [vm_compute; reflexivity|]. split; [vm_compute; discriminate | reflexivity].
Qed.
Definition d_signed : SD.deploy :=
  let d := d_undelegate in SD.Deploy (d_header d) (d_hash d) (d_payment d) (d_session d) sign_by.
Lemma deploy_approvals_case : exists lines, SD.good_deploy (p_hash demo) d_signed /\ SD.review (p_hash demo) true d_signed = Some lines /\
  expert_ok true (p_time demo) (SD.d_header d_signed) /\ zlen (d_approvals d_signed) = 2.
Proof.
  destruct (is_some_ok (SD.review (p_hash demo) true d_signed)) as (lines & R); [vm_compute; reflexivity|]. exists lines.
  split; [good_by|]. split; [exact R|]. split; [apply demo_expert; reflexivity | reflexivity].
Qed.
(** the same deploy, a count of seven and no approval *)
Lemma deploy_count_refuted :
  exists pf pre v, hash32 (p_hash pf) /\ bytes (pre ++ le 4 7) /\ zlen (pre ++ le 4 7) <= 16384 /\
    tx_parse pf true (pre ++ le 4 7) = Ret v /\
    tx_getItem pf true 40 (pre ++ le 4 7) v (getNumItems true v - 1) = Ret (mkItem (text "Approvals #") (VPaged (text "7"))).
Proof.
  exists demo, (firstn (List.length (enc_tx d_signed) - 4 - 98 - 99) (enc_tx d_signed)). eexists.
  split; [exact demo_hash32|]. split; [apply bytesb_ok; vm_compute; reflexivity|]. split; [vm_compute; discriminate|].
  split; [vm_compute; reflexivity|]. vm_compute; reflexivity.
Qed.
(** the signature of the last approval is missing *)
Lemma v1_count_refuted :
  exists pf t cut v, hash32 (p_hash pf) /\ good_transaction (p_hash pf) t /\ zlen (x_approvals t) = 2 /\
    (exists last, enc_v1 t = cut ++ last /\ zlen last = 64) /\
    tx_parse pf true cut = Ret v /\
    tx_getItem pf true 40 cut v (getNumItems true v - 1) = Ret (mkItem (text "Approvals #") (VDirect (text "2"))).
Proof.
  exists demo, t_approved, (firstn (List.length (enc_v1 t_approved) - 64) (enc_v1 t_approved)). eexists.
  split; [exact demo_hash32|]. split; [v1_good|]. split; [reflexivity|].
  split; [exists (skipn (List.length (enc_v1 t_approved) - 64) (enc_v1 t_approved)); split; [symmetry; apply firstn_skipn | vm_compute; reflexivity]|].
  split; [vm_compute; reflexivity|]. vm_compute; reflexivity.
Qed.
