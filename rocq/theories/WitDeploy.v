(** Concrete deploys: cases that meet the hypotheses of the theorems, and
    witnesses for the refutations. *)
From Verif Require Import Base Zxlib Crypto Utils RuntimeArg Deploy DeployUI TxV1 TxV1UI Parser BaseFacts Spec SpecText SpecDeploy Exec ArgsFacts ReaderFacts TextFacts Shows DeployArgs SessionFacts DelegationFacts StoredFacts ModuleFacts ReviewFacts Demo DeployCases.
Import S ST SD.

(** * Checking that a concrete deploy is well-formed *)
Definition zeros_free (n : list Z) : bool := negb (existsb (Z.eqb 0) n).
Definition name_b (max : Z) (n : list Z) : bool := (S.len n <=? max) && zeros_free n.
Lemma name_b_ok max n : name_b max n = true -> good_name max n.
Proof.
  unfold name_b, zeros_free, good_name. intros H. apply andb_prop in H. destruct H as [L Z0]. split; [lia|].
  intros I. apply negb_true_iff in Z0. assert (existsb (Z.eqb 0) n = true); [|congruence].
  apply existsb_exists. exists 0. auto.
Qed.
Definition arg_b (a : arg) : bool := supported (a_ty a) && name_b 300 (a_name a).
Definition ver_b (v : option Z) : bool := match v with None => true | Some n => (0 <=? n) && (n <? 2 ^ 32) end.
Definition target_b (t : target) : bool :=
  match t with
  | ByHash h => S.len h =? 32
  | ByName n => name_b 299 n
  | ByHashV h v => (S.len h =? 32) && ver_b v
  | ByNameV n v => name_b 299 n && ver_b v
  end.
Definition session_b (s : session) : bool :=
  forallb arg_b (args_of s) &&
  match s with
  | Module w _ => S.len w <=? 32
  | Stored t ep _ => target_b t && name_b 99 ep
  | SD.Transfer _ => true
  end.
Definition header_b (h : header) : bool :=
  ((h_alg h =? 1) || (h_alg h =? 2)) && (S.len (h_key h) =? key_len (h_alg h)) &&
  (0 <=? h_time h) && (h_time h <? 2 ^ 64) && (0 <=? h_ttl h) && (h_ttl h <? 2 ^ 64) &&
  (0 <=? h_gas h) && (h_gas h <? 2 ^ 64) && forallb (fun x => S.len x =? 32) (h_deps h) && name_b 99 (h_chain h).
Definition approval_b (a : approval) : bool :=
  ((ap_alg a =? 1) || (ap_alg a =? 2)) && (S.len (ap_key a) =? key_len (ap_alg a)) && (S.len (ap_sig a) =? 64).
Definition deploy_b (d : SD.deploy) : bool :=
  header_b (d_header d) && (S.len (p_amount (d_payment d)) <=? 64) && session_b (d_session d) &&
  forallb approval_b (d_approvals d) && (S.len (d_approvals d) <=? 100).

Lemma forallb_Forall {A} (f : A -> bool) (P : A -> Prop) l :
  (forall x, f x = true -> P x) -> forallb f l = true -> Forall P l.
Proof. intros I F. apply Forall_forall. intros x Hx. rewrite forallb_forall in F. auto. Qed.
Ltac bools := repeat match goal with H : _ && _ = true |- _ => apply andb_prop in H; destruct H end.

Definition check_deploy (H : list Z -> list Z) (d : SD.deploy) : bool :=
  deploy_b d && bytesb (enc_deploy d) && (zlen (enc_tx d) <? 65536) &&
  list_eqb (d_hash d) (H (enc_header (d_header d))) && list_eqb (h_bodyhash (d_header d)) (H (enc_body d)).
Lemma check_good H d : hash32 H -> check_deploy H d = true -> good_deploy H d.
Proof.
  intros Hh B. unfold check_deploy, deploy_b in B. bools.
  match goal with X : list_eqb (d_hash d) _ = true |- _ => apply list_eqb_eq in X; rename X into EH end.
  match goal with X : list_eqb (h_bodyhash _) _ = true |- _ => apply list_eqb_eq in X; rename X into EB end.
  assert (LH : S.len (d_hash d) = 32) by (rewrite EH; apply Hh).
  assert (LB : S.len (h_bodyhash (d_header d)) = 32) by (rewrite EB; apply Hh).
  constructor; auto.
  - unfold header_b in *. bools. constructor; auto; try lia.
    + eapply forallb_Forall; [|eassumption]. intros x Hx. lia.
    + apply name_b_ok. assumption.
  - lia.
  - unfold session_b in *. bools. split.
    + eapply forallb_Forall; [|eassumption]. intros a Ha. unfold arg_b in Ha. bools. split; [assumption | apply name_b_ok; assumption].
    + destruct (d_session d) as [w l|t ep l|l]; [lia| |exact I]. bools. split; [|apply name_b_ok; assumption].
      assert (V : forall v, ver_b v = true -> good_ver v) by (intros [n|]; cbn [ver_b good_ver]; [lia|auto]).
      destruct t; cbn [target_b good_target] in *; bools; repeat split; auto; try lia; eapply name_b_ok; eassumption.
  - eapply forallb_Forall; [|eassumption]. intros a Ha. unfold approval_b in Ha. bools. split; [|split; lia].
    match goal with X : _ || _ = true |- _ => apply orb_prop in X; destruct X; [left|right]; lia end.
  - lia.
  - apply bytesb_ok. assumption.
  - apply Z.ltb_lt. assumption.
Qed.

(** * Demonstration deploys, for the platform [demo] *)
Definition demo_key := repeat 17 32.
Definition demo_appr := [Approval 1 demo_key (repeat 9 64)].
Definition demo_pay := Payment [] [0; 225; 245; 5].
Definition mk (s : session) : SD.deploy :=
  seal demo_hash 1 demo_key 1700000000000 1800000 1 [repeat 3 32] (text "casper") demo_pay s demo_appr.

Definition arg_amount := Arg (text "amount") [4; 0; 242; 5; 42] (Prim 8).
Definition arg_target := Arg (text "target") (1 :: repeat 34 32) (Prim 22).
Definition arg_source := Arg (text "source") (repeat 35 32 ++ [7]) (Prim 12).
Definition arg_id := Arg (text "id") (1 :: le 8 7) (COption (Prim 5)).
Definition arg_delegator := Arg (text "delegator") (1 :: demo_key) (Prim 22).
Definition arg_validator := Arg (text "validator") (2 :: repeat 5 33) (Prim 22).
Definition arg_new := Arg (text "new_validator") (1 :: repeat 6 32) (Prim 22).
Definition arg_note n := Arg (text "note") (lv (repeat n 5)) (Prim 10).

Definition d_transfer := mk (SD.Transfer [arg_id; arg_target; arg_amount]).
Definition d_transfer4 := mk (SD.Transfer [arg_id; arg_source; arg_target; arg_amount]).
Definition d_delegate := mk (Stored (ByHashV (repeat 8 32) (Some 3)) (text "delegate") [arg_amount; arg_validator; arg_delegator]).
Definition d_redelegate := mk (Stored (ByName (text "auction")) (text "redelegate") [arg_new; arg_amount; arg_validator; arg_delegator]).
Definition arg_auction := Arg (text "auction") (lv (text "undelegate")) (Prim 10).
Definition d_undelegate := mk (Module [0; 97; 115; 109] [arg_amount; arg_validator; arg_delegator; arg_auction]).
Definition d_call := mk (Stored (ByNameV (text "counter") None) (text "increment") [arg_note 65; arg_amount; arg_note 66]).

Ltac good_by := apply check_good; [exact demo_hash32 | vm_compute; reflexivity].
Lemma d_transfer_good : good_deploy (p_hash demo) d_transfer. Proof. good_by. Qed.
Lemma d_transfer4_good : good_deploy (p_hash demo) d_transfer4. Proof. good_by. Qed.
Lemma d_delegate_good : good_deploy (p_hash demo) d_delegate. Proof. good_by. Qed.
Lemma d_redelegate_good : good_deploy (p_hash demo) d_redelegate. Proof. good_by. Qed.
Lemma d_undelegate_good : good_deploy (p_hash demo) d_undelegate. Proof. good_by. Qed.
Lemma d_call_good : good_deploy (p_hash demo) d_call. Proof. good_by. Qed.
Lemma demo_expert x h : h_ttl h / 1000 <? 29 * 86400 = true -> expert_ok x (p_time demo) h.
Proof. intros T _. split; [lia|]. eexists. reflexivity. Qed.

(** Items shown, for comparing two transactions. *)
Fixpoint shown (pf : platform) (x : bool) (data : list Z) (t : txn) (i : Z) (n : nat) : list (outcome item) :=
  match n with O => [] | S m => tx_getItem pf x 40 data t i :: shown pf x data t (i + 1) m end.
Definition all_items (pf : platform) (x : bool) (data : list Z) : list (outcome item) :=
  match tx_parse pf x data with
  | Ret t => shown pf x data t 0 (Z.to_nat (getNumItems x t))
  | _ => []
  end.
Definition accepted (pf : platform) (x : bool) (data : list Z) : Prop := exists t, tx_parse pf x data = Ret t.
Definition is_key (k : string) (o : outcome item) : bool :=
  match o with Ret it => list_eqb (ikey it) (text k) | _ => false end.
(** the items other than the transaction hash *)
Definition but_hash (l : list (outcome item)) := filter (fun o => negb (is_key "Txn hash" o)) l.

(** * Lookalikes: two accepted deploys whose reviews, in expert mode, differ in
    nothing but the transaction hash. *)
Definition lookalikes (pf : platform) (d1 d2 : SD.deploy) : Prop :=
  good_deploy (p_hash pf) d1 /\ good_deploy (p_hash pf) d2 /\
  accepted pf true (enc_tx d1) /\ accepted pf true (enc_tx d2) /\
  (forall o, In o (all_items pf true (enc_tx d1)) -> exists it, o = Ret it) /\
  but_hash (all_items pf true (enc_tx d1)) = but_hash (all_items pf true (enc_tx d2)).
Definition all_ret (l : list (outcome item)) : bool := forallb (fun o => match o with Ret _ => true | _ => false end) l.
Lemma all_ret_ok l : all_ret l = true -> forall o, In o l -> exists it, o = Ret it.
Proof.
  unfold all_ret. rewrite forallb_forall. intros F o I. specialize (F o I). destruct o; try discriminate. eauto.
Qed.
Ltac alike := split; [good_by|]; split; [good_by|]; split; [eexists; vm_compute; reflexivity|];
  split; [eexists; vm_compute; reflexivity|]; split; [apply all_ret_ok; vm_compute; reflexivity|]; vm_compute; reflexivity.

(** A native transfer with one unknown argument: two different recipients,
    the same review, although the hashes of the argument lists differ. *)
Definition args_to n := [arg_amount; arg_id; Arg (text "target") (1 :: repeat n 32) (Prim 22); arg_note 65].
Definition transfer_to n := mk (SD.Transfer (args_to n)).
Lemma args_hash_refuted :
  exists pf l1 l2 d1 d2, hash32 (p_hash pf) /\ lookalikes pf d1 d2 /\
    d_session d1 = SD.Transfer l1 /\ d_session d2 = SD.Transfer l2 /\
    find_arg (text "target") l1 <> find_arg (text "target") l2 /\
    p_hash pf (enc_args l1) <> p_hash pf (enc_args l2) /\
    existsb (is_key "Args hash") (all_items pf true (enc_tx d1)) = true.
Proof.
  exists demo, (args_to 1), (args_to 2), (transfer_to 1), (transfer_to 2).
  split; [exact demo_hash32|]. split; [alike|]. split; [reflexivity|]. split; [reflexivity|].
  split; [vm_compute; discriminate|]. split; [vm_compute; discriminate|]. vm_compute; reflexivity.
Qed.

(** Delegations with an extra argument, which appears nowhere. *)
Definition delegate_with n :=
  mk (Stored (ByHash (repeat 8 32)) (text "delegate") [arg_amount; arg_validator; arg_delegator; arg_note n]).
Lemma dropped_argument_refuted :
  exists pf d1 d2, hash32 (p_hash pf) /\ lookalikes pf d1 d2 /\
    type_text (d_session d1) = "Delegate"%string /\ type_text (d_session d2) = "Delegate"%string /\
    args_of (d_session d1) <> args_of (d_session d2) /\
    existsb (is_key "Args hash") (all_items pf true (enc_tx d1)) = false.
Proof.
  exists demo, (delegate_with 1), (delegate_with 2).
  split; [exact demo_hash32|]. split; [alike|]. split; [reflexivity|]. split; [reflexivity|].
  split; [vm_compute; discriminate|]. vm_compute; reflexivity.
Qed.

(** Keys of different variants (account, contract) with the same 32 bytes. *)
Definition transfer_key n := mk (SD.Transfer [arg_id; Arg (text "target") (n :: repeat 34 32) (Prim 11); arg_amount]).
Definition transfer_uref n := mk (SD.Transfer [arg_id; Arg (text "target") (repeat 34 32 ++ [n]) (Prim 12); arg_amount]).
Lemma target_variant_refuted :
  exists pf l1 l2 l3 d1 d2 d3, hash32 (p_hash pf) /\ lookalikes pf d1 d2 /\ lookalikes pf d2 d3 /\
    d_session d1 = SD.Transfer l1 /\ d_session d2 = SD.Transfer l2 /\ d_session d3 = SD.Transfer l3 /\
    find_arg (text "target") l1 <> find_arg (text "target") l2 /\
    (exists v w, find_arg (text "target") l1 = Some (Arg (text "target") v (Prim 11)) /\
                 find_arg (text "target") l3 = Some (Arg (text "target") w (Prim 12))).
Proof.
  eexists demo, _, _, _, (transfer_key 0), (transfer_key 1), (transfer_uref 7).
  split; [exact demo_hash32|]. split; [alike|]. split; [alike|].
  split; [reflexivity|]. split; [reflexivity|]. split; [reflexivity|].
  split; [vm_compute; discriminate|]. eexists _, _. split; vm_compute; reflexivity.
Qed.

(** Payment code is accepted and not shown. *)
Definition mk_pay w : SD.deploy :=
  seal demo_hash 1 demo_key 1700000000000 1800000 1 [] (text "casper") (Payment w [1; 2]) (SD.Transfer [arg_id; arg_target; arg_amount]) [].
Lemma payment_code_refuted :
  exists pf d1 d2, hash32 (p_hash pf) /\ lookalikes pf d1 d2 /\
    p_code (d_payment d1) = [] /\ p_code (d_payment d2) <> [].
Proof.
  exists demo, (mk_pay []), (mk_pay [0; 97; 115; 109; 1; 0; 0; 0]).
  split; [exact demo_hash32|]. split; [alike|]. split; [reflexivity | discriminate].
Qed.

(** No version and version 0. *)
Definition call_version v := mk (Stored (ByHashV (repeat 8 32) v) (text "go") [arg_note 1]).
Lemma version_refuted :
  exists pf h ep l d1 d2, hash32 (p_hash pf) /\ lookalikes pf d1 d2 /\
    d_session d1 = Stored (ByHashV h None) ep l /\ d_session d2 = Stored (ByHashV h (Some 0)) ep l.
Proof.
  eexists demo, _, _, _, (call_version None), (call_version (Some 0)).
  split; [exact demo_hash32|]. split; [alike|]. split; reflexivity.
Qed.

(** An argument called "validator", NUL, "x" is shown as the validator, while
    the argument called "validator" is another one. *)
Definition arg_fake := Arg (text "validator" ++ 0 :: text "x") (1 :: repeat 7 32) (Prim 22).
Definition fake_args := [arg_fake; arg_amount; arg_delegator; arg_validator].
Definition d_fake := mk (Stored (ByHash (repeat 8 32)) (text "delegate") fake_args).
Lemma fake_name_refuted :
  exists pf l d t i it a, hash32 (p_hash pf) /\
    (exists ct, d_session d = Stored ct (text "delegate") l) /\ zlen (enc_tx d) < 65536 /\ bytes (enc_tx d) /\
    Forall (fun a => supported (a_ty a) = true) l /\
    tx_parse pf true (enc_tx d) = Ret t /\ tx_getItem pf true 40 (enc_tx d) t i = Ret it /\
    find_arg (text "validator") l = Some a /\ a_ty a = Prim 22 /\
    ikey it = text "Validator" /\
    forall v, arg_view (a_ty a) (a_val a) = Some v -> ~ renders (p_hash pf) (p_time pf) v (ival it).
Proof.
  exists demo, fake_args, d_fake. eexists _, 12, _, _.
  split; [exact demo_hash32|]. split; [eexists; reflexivity|]. split; [vm_compute; reflexivity|].
  split; [apply bytesb_ok; vm_compute; reflexivity|]. split; [repeat constructor|].
  split; [vm_compute; reflexivity|]. split; [vm_compute; reflexivity|]. split; [vm_compute; reflexivity|].
  split; [reflexivity|]. split; [reflexivity|]. intros v V. vm_compute in V. injection V as <-. vm_compute. discriminate.
Qed.
