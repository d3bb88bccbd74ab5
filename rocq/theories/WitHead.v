(** Headings of transactions whose bodies have no review in the specification. *)
From Verif Require Import Base Zxlib Crypto Utils RuntimeArg Deploy DeployUI TxV1 TxV1UI Parser App BaseFacts Spec SpecText SpecDeploy SpecTx SpecLayout SpecRaw SpecForm SpecShow SpecHead SpecApp SpecSess Exec Demo Shows ReviewFacts WitDeploy WitTx TxShow TxReview FormFacts FormReview FormAccept AppFacts AppHist AppClaims AppSign SessFacts SessTx WitApp WitSess WitBind WitForm WitShow WitExact WitLook WitRaw WitMore FormArgs FormSign RawShow DeploySign WitSign HeadFacts HeadClear.
Import S SX SL SR SF SW SH.

(** A call of a versioned contract without version, by an entry point with a
    NUL in its name. *)
Definition vague_of (h : list Z) : form :=
  Form h alice 1700000000000 1800000 (text "casper") (PClassic 2500000000 2 1) (ARaw [9; 9]) (XStored (SD.ByHashV (repeat 5 32) None) VmV1) (Custom [103; 0; 111]) [demo_approved].
Definition vague : form := vague_of (demo_hash (form_payload (right_numbers 3 (vague_of (repeat 0 32))) (vague_of (repeat 0 32)))).
Definition vague_numbers : numbers := right_numbers 3 vague.
Definition vague_data : list Z := form_bytes vague_numbers vague.
Lemma vague_ok : form_ok vague.
Proof.
  constructor; cbn [vague vague_of f_hash f_initiator f_time f_ttl f_price f_args f_target f_entry f_approvals]; try lia.
  - apply (proj1 (demo_hash32 _)).
  - right. left. split; reflexivity.
  - cbn. lia.
  - exact Logic.I.
  - split; [split; [reflexivity|exact Logic.I]|exact Logic.I].
  - reflexivity.
  - constructor; [|constructor]. split; [right; left; split; reflexivity|]. split; [left; reflexivity|reflexivity].
Qed.
Lemma vague_begins : begins vague_data vague_numbers vague.
Proof. unfold vague_data. rewrite <- (app_nil_r (form_bytes _ _)). apply begins_of; [exact vague_ok|apply right_ok; [unfold word; lia|vm_compute; reflexivity]]. Qed.
Lemma vague_accepted x : exists v, tx_parse demo x (1 :: vague_data) = Ret (TV1 v).
Proof.
  assert (A : exists w, tx_parse demo x (1 :: vague_data) = Ret w) by (apply taken_ok; destruct x; vm_compute; reflexivity). destruct A as ([w|v] & A); [|eauto].
  exfalso. assert (K : match tx_parse demo x (1 :: vague_data) with Ret (TV1 _) => true | _ => false end = true) by (destruct x; vm_compute; reflexivity). rewrite A in K. discriminate K.
Qed.
Lemma vague_plain x : form_plain x vague.
Proof. split; [split; [vm_compute; congruence|intros K; vm_compute in K; intuition discriminate]|]. intros _. vm_compute; reflexivity. Qed.
Lemma vague_unseen k data t : depicts k vague data t -> ~ presentable t.
Proof. intros D P. pose proof (pr_entry _ P) as E. rewrite (de_entry _ _ _ _ D) in E. destruct E as [_ E]. apply E. right. left. reflexivity. Qed.

Lemma heading_case_v1 (x : bool) : exists d s tr1 e st q pre tr2 v data k u, device_ok d /\ reach d s (tr1 ++ (e, st, Signed q pre) :: tr2) /\ pending st = Some (RTx (TV1 v)) /\ flash_size d <= 65472 /\
  tx_data (bufs st) = 1 :: data /\ begins data k u /\ few_args u /\ form_plain (expert_mode st) u /\ expert_mode st = x /\ forall t, depicts k u data t -> ~ presentable t.
Proof.
  destruct (vague_accepted x) as (v & T). destruct (signing_history x (1 :: vague_data) _ ltac:(apply bytesb_ok; vm_compute; reflexivity) ltac:(vm_compute; reflexivity) T) as (s & tr1 & st & h & R & P & Ed & Ex).
  exists roomy_dev, s, tr1, (Approve true), st, (casper 0), h, [], v, vague_data, vague_numbers, vague.
  split; [exact roomy_ok|]. split; [exact R|]. split; [exact P|]. split; [cbn; lia|]. split; [exact Ed|]. split; [exact vague_begins|]. split; [exact Logic.I|]. split; [apply vague_plain|]. split; [exact Ex|].
  intros t. apply vague_unseen.
Qed.

(** The deploy of [C68_refuted]: no session is encoded in it. *)
Definition deep_header : SD.header := SD.Header 1 demo_key 1700000000000 1800000 1 (demo_hash (SD.enc_payment demo_pay ++ deep_sess)) [] (text "casper").
Lemma heading_case_deploy : exists d s tr1 e st q pre tr2 v data h dh w y more, device_ok d /\ reach d s (tr1 ++ (e, st, Signed q pre) :: tr2) /\ pending st = Some (RTx (TDeploy v)) /\
  tx_data (bufs st) = 0 :: data /\ data = SD.enc_header h ++ dh ++ enc_fee w y ++ more /\ zlen dh = 32 /\ SD.good_header h /\
  expert_mode st = true /\ exists ses n, more = ses ++ le 4 n /\ forall i, ses <> SD.enc_session i.
Proof.
  destruct (raw_ok_ok _ _ (deep_ok true)) as (B & L & v & T).
  destruct (signing_history true (0 :: deep_tx) _ ltac:(apply bytesb_ok; vm_compute; reflexivity) ltac:(vm_compute; reflexivity) T) as (s & tr1 & st & h & R & P & Ed & Ex).
  exists roomy_dev, s, tr1, (Approve true), st, (casper 0), h, [], v, deep_tx, deep_header, (demo_hash (SD.enc_header deep_header)), [], [4; 0; 225; 245; 5], (deep_sess ++ le 4 0).
  split; [exact roomy_ok|]. split; [exact R|]. split; [exact P|]. split; [exact Ed|].
  split; [vm_compute; reflexivity|]. split; [apply demo_hash32|].
  split; [constructor; cbn [deep_header SD.h_alg SD.h_key SD.h_time SD.h_ttl SD.h_gas SD.h_bodyhash SD.h_deps SD.h_chain]; try lia; [reflexivity|apply (proj1 (demo_hash32 _))|constructor|split; [vm_compute; congruence|intros K; vm_compute in K; intuition discriminate]]|].
  split; [exact Ex|]. exists deep_sess, 0. split; [reflexivity|exact deep_not].
Qed.

(** A fee of 10^256 + 2500000000 motes. *)
Definition vast_value : list Z := 107 :: le 107 (10 ^ 256 + 2500000000).
Definition vast_sess : list Z := SD.enc_session (SD.Transfer [arg_id; arg_target; arg_amount]).
Definition vast_header : SD.header := SD.Header 1 demo_key 1700000000000 1800000 1 (demo_hash (enc_fee [] vast_value ++ vast_sess)) [] (text "casper").
Definition vast_rest : list Z := vast_sess ++ le 4 0.
Definition vast_tx : list Z := SD.enc_header vast_header ++ demo_hash (SD.enc_header vast_header) ++ enc_fee [] vast_value ++ vast_rest.
Lemma vast_ok x : raw_ok x vast_tx = true.
Proof. destruct x; vm_compute; reflexivity. Qed.
Lemma vast_good : SD.good_header vast_header.
Proof.
  constructor; cbn [vast_header SD.h_alg SD.h_key SD.h_time SD.h_ttl SD.h_gas SD.h_bodyhash SD.h_deps SD.h_chain]; try lia;
    [reflexivity|apply (proj1 (demo_hash32 _))|constructor|split; [vm_compute; congruence|intros K; vm_compute in K; intuition discriminate]].
Qed.
Lemma vast_refuted : exists pf h w y more, hash32 (p_hash pf) /\ SD.good_header h /\ value (tl y) = 10 ^ 256 + 2500000000 /\
  let data := SD.enc_header h ++ p_hash pf (SD.enc_header h) ++ enc_fee w y ++ more in
  bytes data /\ zlen data < 65535 /\
  forall x kl, exists v, tx_parse pf x (0 :: data) = Ret (TDeploy v) /\
    exists it, tx_getItem pf x kl (0 :: data) (TDeploy v) (if x then 8 else 4) = Ret it /\ shows (p_hash pf) (p_time pf) (SD.ln "Fee" (SD.Motes 2500000000)) it.
Proof.
  exists demo, vast_header, [], vast_value, vast_rest. split; [exact demo_hash32|]. split; [exact vast_good|]. split; [vm_compute; reflexivity|].
  cbv zeta. change (SD.enc_header vast_header ++ p_hash demo (SD.enc_header vast_header) ++ enc_fee [] vast_value ++ vast_rest) with vast_tx.
  destruct (raw_ok_ok _ _ (vast_ok true)) as (B & L & _). split; [exact B|]. split; [exact L|]. intros x kl. destruct (raw_ok_ok _ _ (vast_ok x)) as (_ & _ & v & T). exists v. split; [exact T|].
  assert (FL : fee_line vast_value = SD.ln "Fee" (SD.Motes 2500000000)) by (vm_compute; reflexivity). rewrite <- FL.
  apply (deploy_heading_shown demo x kl vast_tx vast_header (demo_hash (SD.enc_header vast_header)) [] vast_value vast_rest v _ _ demo_hash32 B L eq_refl (proj1 (demo_hash32 _)) vast_good T).
  unfold deploy_head. apply in_or_app. right. destruct x; cbn [In]; auto 6.
Qed.
