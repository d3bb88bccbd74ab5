(** Accepted bytes that look alike. *)
From Verif Require Import Base Zxlib Crypto Utils RuntimeArg Deploy DeployUI TxV1 TxV1UI Parser App BaseFacts Spec SpecText SpecDeploy SpecTx SpecLayout SpecRaw SpecForm SpecShow SpecApp SpecSess Exec Demo Shows ReviewFacts WitDeploy WitTx TxShow TxReview FormFacts FormReview FormAccept AppFacts AppHist AppClaims AppSign SessFacts SessTx WitApp WitSess WitForm WitShow WitExact WitLook WitRaw WitMore FormArgs FormSign RawShow DeploySign LookFacts LookTx WitLook LookForm WitSign SpecLook.
Import S SX SL SR SF SW SK.

(** ** Native operations, with two lengths of the arguments, both wrong *)
Definition longer (n : native) : form := native_of (demo_hash (form_payload (right_numbers 4 (native_of (repeat 0 32) n)) (native_of (repeat 0 32) n))) n.
Definition longer_data (n : native) : list Z := form_bytes (right_numbers 4 (longer n)) (longer n) ++ [9].
Lemma longer_begins n : begins (longer_data n) (right_numbers 4 (longer n)) (longer n).
Proof.
  apply begins_of; [|apply right_ok; [unfold word; lia|destruct n; vm_compute; reflexivity]].
  pose proof (native_form_ok n) as [H1 H2 H3 H4 H5 H6 H7 H8 H9]. constructor; auto. 
Qed.
(** Two operations stand for all, to keep the computation short. *)
Definition sample (n : native) : Prop := n = NTransfer \/ n = NRedelegate.
Lemma longer_alike x n : sample n -> look_alike demo x (1 :: native_data (native_form n)) (1 :: longer_data n).
Proof. intros [-> | ->]; apply alike_ok; destruct x; vm_compute; split; reflexivity. Qed.
Lemma alike_case (x : bool) (n : native) : sample n -> exists data k u t data' k' u' t' la lb,
  bytes data /\ zlen data < 65472 /\ begins data k u /\ depicts k u data t /\ presentable t /\ args_pos k u < 256 /\ xexpert_ok x (p_time demo) (x_payload t) /\
  bytes data' /\ zlen data' < 65472 /\ begins data' k' u' /\ depicts k' u' data' t' /\ presentable t' /\ args_pos k' u' < 256 /\ xexpert_ok x (p_time demo) (x_payload t') /\
  look_alike demo x (1 :: data) (1 :: data') /\ review (p_hash demo) x t = Some la /\ review (p_hash demo) x t' = Some lb /\
  f_entry u = Op n /\ form_payload k u <> form_payload k' u' /\ ~ exact_numbers k u.
Proof.
  intros Sn.
  set (u := native_form n). set (u' := longer n). exists (native_data u), (right_numbers 3 u), u, (native_seen u n), (longer_data n), (right_numbers 4 u'), u', (native_seen u' n).
  assert (R : exists lines, review (p_hash demo) x (native_seen u n) = Some lines) by (apply is_some_ok; destruct x, Sn as [-> | ->]; vm_compute; reflexivity). destruct R as (la & Ra).
  assert (R : exists lines, review (p_hash demo) x (native_seen u' n) = Some lines) by (apply is_some_ok; destruct x, Sn as [-> | ->]; vm_compute; reflexivity). destruct R as (lb & Rb).
  exists la, lb.
  split; [apply bytesb_ok; destruct Sn as [-> | ->]; vm_compute; reflexivity|]. split; [destruct Sn as [-> | ->]; vm_compute; reflexivity|]. split; [apply native_begins|].
  split; [apply native_depicts; eexists; reflexivity|]. split; [apply native_presentable; reflexivity|]. split; [destruct Sn as [-> | ->]; vm_compute; reflexivity|]. split; [apply v1_expert; reflexivity|].
  split; [apply bytesb_ok; destruct Sn as [-> | ->]; vm_compute; reflexivity|]. split; [destruct Sn as [-> | ->]; vm_compute; reflexivity|]. split; [apply longer_begins|].
  split; [apply native_depicts; eexists; reflexivity|]. split; [apply native_presentable; reflexivity|]. split; [destruct Sn as [-> | ->]; vm_compute; reflexivity|]. split; [apply v1_expert; reflexivity|].
  split; [apply longer_alike, Sn|]. split; [exact Ra|]. split; [exact Rb|]. split; [reflexivity|].
  split; [destruct Sn as [-> | ->]; vm_compute; congruence|]. intros E; pose proof (en_args _ _ E) as K; destruct Sn as [-> | ->]; vm_compute in K; discriminate K.
Qed.

(** ** Transfers with different ids, followed by different bytes *)
Lemma deploy_alike_case : let d1 := transfer_id 1 in let d2 := transfer_id 2 in exists r n r' n' sl sl',
  let h := SD.d_header d1 in let p := SD.d_payment d1 in let i := SD.d_session d1 in let h' := SD.d_header d2 in let p' := SD.d_payment d2 in let i' := SD.d_session d2 in
  SD.good_header h /\ S.len (SD.p_amount p) <= 64 /\ SD.good_session i /\ SD.h_bodyhash h = p_hash demo (SD.enc_payment p ++ SD.enc_session i) /\ trailing false i n r /\
  bytes (signed_deploy (p_hash demo) h p i ++ r) /\ zlen (signed_deploy (p_hash demo) h p i ++ r) < 65531 /\ SD.session_review (p_hash demo) false i = Some sl /\ expert_ok false (p_time demo) h /\
  SD.good_header h' /\ S.len (SD.p_amount p') <= 64 /\ SD.good_session i' /\ SD.h_bodyhash h' = p_hash demo (SD.enc_payment p' ++ SD.enc_session i') /\ trailing false i' n' r' /\
  bytes (signed_deploy (p_hash demo) h' p' i' ++ r') /\ zlen (signed_deploy (p_hash demo) h' p' i' ++ r') < 65531 /\ SD.session_review (p_hash demo) false i' = Some sl' /\ expert_ok false (p_time demo) h' /\
  look_alike demo false (0 :: signed_deploy (p_hash demo) h p i ++ r) (0 :: signed_deploy (p_hash demo) h' p' i' ++ r') /\ i <> i' /\
  transfers (sealed (p_hash demo) h p i) None (SD.KeyText 1 (repeat 34 32)) (SD.Motes 705032704) (SD.Number 1) /\
  transfers (sealed (p_hash demo) h' p' i') None (SD.KeyText 1 (repeat 34 32)) (SD.Motes 705032704) (SD.Number 2).
Proof.
  cbv zeta. destruct transfer_pair as (G1 & G2 & E1 & E2 & [T1] & [T2] & _).
  assert (R1 : exists s, SD.session_review (p_hash demo) false (SD.d_session (transfer_id 1)) = Some s) by (vm_compute; eexists; reflexivity). destruct R1 as (s1 & R1).
  assert (R2 : exists s, SD.session_review (p_hash demo) false (SD.d_session (transfer_id 2)) = Some s) by (vm_compute; eexists; reflexivity). destruct R2 as (s2 & R2).
  exists odd_tail, 77, [3], 5, s1, s2.
  split; [apply (SD.gd_header _ _ G1)|]. split; [apply (SD.gd_pay _ _ G1)|]. split; [apply (SD.gd_session _ _ G1)|]. split; [apply (SD.gd_body _ _ G1)|].
  split; [constructor; [unfold word; lia|discriminate|intros w l E; discriminate E]|]. split; [apply bytesb_ok; vm_compute; reflexivity|]. split; [vm_compute; reflexivity|]. split; [exact R1|]. split; [exact E1|].
  split; [apply (SD.gd_header _ _ G2)|]. split; [apply (SD.gd_pay _ _ G2)|]. split; [apply (SD.gd_session _ _ G2)|]. split; [apply (SD.gd_body _ _ G2)|].
  split; [constructor; [unfold word; lia|discriminate|intros w l E; discriminate E]|]. split; [apply bytesb_ok; vm_compute; reflexivity|]. split; [vm_compute; reflexivity|]. split; [exact R2|]. split; [exact E2|].
  split; [apply alike_ok; vm_compute; split; reflexivity|]. split; [vm_compute; congruence|]. split; constructor; assumption.
Qed.

(** ** Screens *)
Lemma screens_case (x : bool) (n : native) : sample n -> exists d st tr r st' tr' r', device_ok d /\ reach d st tr /\ pending st = Some (RTx r) /\ reach d st' tr' /\ pending st' = Some (RTx r') /\
  expert_mode st = x /\ expert_mode st' = x /\ review_count st (RTx r) = review_count st' (RTx r') /\
  (forall i, 0 < i < review_count st (RTx r) -> review_item d st (RTx r) 40 i = review_item d st' (RTx r') 40 i) /\ tx_data (bufs st) <> tx_data (bufs st').
Proof.
  intros Sn.
  destruct (longer_alike x n Sn) as (t & t' & T & T' & N & It).
  assert (B : bytes (1 :: native_data (native_form n))) by (apply bytesb_ok; destruct Sn as [-> | ->]; vm_compute; reflexivity). assert (B' : bytes (1 :: longer_data n)) by (apply bytesb_ok; destruct Sn as [-> | ->]; vm_compute; reflexivity).
  assert (L : zlen (1 :: native_data (native_form n)) < 850) by (destruct Sn as [-> | ->]; vm_compute; reflexivity). assert (L' : zlen (1 :: longer_data n) < 850) by (destruct Sn as [-> | ->]; vm_compute; reflexivity).
  destruct (signing_history x _ _ B L T) as (s & tr & st & h & Rc & P & Ed & Ex). destruct (signing_history x _ _ B' L' T') as (s' & tr' & st' & h' & Rc' & P' & Ed' & Ex').
  destruct (reach_at _ _ _ _ _ _ _ Rc) as (R1 & _). destruct (reach_at _ _ _ _ _ _ _ Rc') as (R1' & _).
  exists roomy_dev, st, tr, t, st', tr', t'. split; [exact roomy_ok|]. split; [exact R1|]. split; [exact P|]. split; [exact R1'|]. split; [exact P'|]. split; [exact Ex|]. split; [exact Ex'|].
  cbn [review_count review_item]. rewrite Ex, Ex', Ed, Ed'. split; [exact N|]. split; [exact It|].
  intros Q. assert (Z1 : zlen (1 :: native_data (native_form n)) = zlen (1 :: longer_data n)) by (rewrite Q; reflexivity). destruct Sn as [-> | ->]; vm_compute in Z1; discriminate Z1.
Qed.
