(** Concrete transactions for the properties of accepted deploys. *)
From Verif Require Import Base Zxlib Crypto Utils RuntimeArg Deploy DeployUI TxV1 TxV1UI Parser BaseFacts Spec SpecText SpecDeploy Exec ArgsFacts ReaderFacts TextFacts Demo DeployCases WitDeploy BindCases.
Import S ST SD.

Definition is_deploy (o : outcome txn) : bool := match o with Ret (TDeploy _) => true | _ => false end.
Lemma is_deploy_ok o : is_deploy o = true -> exists v, o = Ret (TDeploy v).
Proof. destruct o as [[v|v]| |]; try discriminate. eauto. Qed.
Definition raw_ok (x : bool) (data : list Z) : bool :=
  bytesb data && (zlen data <? 65535) && is_deploy (tx_parse demo x (0 :: data)).
Lemma raw_ok_ok x data : raw_ok x data = true ->
  bytes data /\ zlen data < 65535 /\ exists v, tx_parse demo x (0 :: data) = Ret (TDeploy v).
Proof.
  unfold raw_ok. intros H. bools. split; [apply bytesb_ok; assumption|]. split; [lia|]. apply is_deploy_ok. assumption.
Qed.

(** A header that announces [nd] dependencies, with the given bytes for them. *)
Definition raw_tx (nd : Z) (deps pay sess : list Z) : list Z :=
  let body := pay ++ sess in
  let hdr := [1] ++ demo_key ++ le 8 1700000000000 ++ le 8 1800000 ++ le 8 1 ++ demo_hash body
             ++ le 4 nd ++ deps ++ lv (text "casper") in
  hdr ++ demo_hash hdr ++ body ++ le 4 0.
Definition transfer_sess := enc_session (SD.Transfer [arg_id; arg_target; arg_amount]).

(** 2048 dependencies announced, none present. *)
Definition no_deps := raw_tx 2048 [] (enc_payment demo_pay) transfer_sess.
Lemma no_deps_ok x : raw_ok x no_deps = true.
Proof. destruct x; vm_compute; reflexivity. Qed.

Lemma concat32 (l : list (list Z)) : Forall (fun x => S.len x = 32) l -> zlen (List.concat l) = 32 * zlen l.
Proof.
  induction 1 as [|a l Ha _ IH]; [reflexivity|]. cbn [List.concat]. rewrite zlen_app, zlen_cons, IH.
  change (S.len a) with (zlen a) in Ha. lia.
Qed.

Lemma no_deps_header h rest : good_header h -> no_deps <> enc_header h ++ rest.
Proof.
  intros G E. destruct G as [GA GK _ _ _ GB GD _]. unfold enc_header in E. rewrite <- !app_assoc in E. change ([h_alg h] ++ ?r) with (h_alg h :: r) in E.
  assert (F : exists a32 b24 c32 tl, no_deps = 1 :: a32 ++ b24 ++ c32 ++ le 4 2048 ++ tl /\ zlen a32 = 32 /\ zlen b24 = 24 /\ zlen c32 = 32).
  { unfold no_deps, raw_tx. cbv zeta. rewrite <- !app_assoc. change ([1] ++ ?r) with (1 :: r).
    exists demo_key, (le 8 1700000000000 ++ le 8 1800000 ++ le 8 1), (demo_hash (enc_payment demo_pay ++ transfer_sess)).
    eexists. split; [rewrite <- !app_assoc; reflexivity|]. split; [reflexivity|]. split; [reflexivity|].
    apply demo_hash32. }
  destruct F as (a32 & b24 & c32 & tl & F & Za & Zb & Zc).
  rewrite F in E. pose proof (f_equal (hd 0) E) as EA. cbn [hd] in EA. apply (f_equal (@List.tl Z)) in E. cbn [List.tl] in E. assert (GA' : h_alg h = 1) by lia. clear EA.
  rewrite GA' in GK. change (key_len 1) with 32 in GK. change (S.len ?x) with (zlen x) in *.
  assert (Z1 : zlen a32 = zlen (h_key h)) by (change (zlen (h_key h) = 32) in GK; lia).
  destruct (app_inj_len _ _ _ _ E (zlen_nat _ _ Z1)) as [_ E2].
  assert (Z2 : zlen b24 = zlen (le 8 (h_time h) ++ le 8 (h_ttl h) ++ le 8 (h_gas h))) by (rewrite !zlen_app, !le_length; lia).
  rewrite (app_assoc (le 8 (h_ttl h))), (app_assoc (le 8 (h_time h))) in E2.
  destruct (app_inj_len _ _ _ _ E2 (zlen_nat _ _ Z2)) as [_ E3].
  assert (Z3 : zlen c32 = zlen (h_bodyhash h)) by (change (zlen (h_bodyhash h) = 32) in GB; lia).
  destruct (app_inj_len _ _ _ _ E3 (zlen_nat _ _ Z3)) as [_ E4].
  assert (Z4 : zlen (le 4 2048) = zlen (le 4 (zlen (h_deps h)))) by (rewrite !le_length; reflexivity).
  destruct (app_inj_len _ _ _ _ E4 (zlen_nat _ _ Z4)) as [E5 E6].
  assert (Zt : zlen tl < 1000).
  { assert (T : zlen no_deps < 1000) by (vm_compute; reflexivity). rewrite F, zlen_cons, !zlen_app in T.
    pose proof (zlen_nonneg a32). pose proof (zlen_nonneg b24). pose proof (zlen_nonneg c32). pose proof (zlen_nonneg (le 4 2048)). lia. }
  rewrite E6, !zlen_app, (concat32 _ GD) in Zt.
  pose proof (zlen_nonneg (lv (h_chain h))). pose proof (zlen_nonneg rest). pose proof (zlen_nonneg (h_deps h)).
  assert (V : S.value (le 4 2048) = S.value (le 4 (zlen (h_deps h)))) by congruence.
  rewrite !value_le in V by lia. lia.
Qed.

Lemma dependencies_refuted :
  exists pf x data v, hash32 (p_hash pf) /\ bytes data /\ zlen data < 65535 /\
    tx_parse pf x (0 :: data) = Ret (TDeploy v) /\
    forall h rest, good_header h -> data <> enc_header h ++ rest.
Proof.
  exists demo, false, no_deps. destruct (raw_ok_ok _ _ (no_deps_ok false)) as (B & L & v & P). exists v.
  split; [exact demo_hash32|]. split; [exact B|]. split; [exact L|]. split; [exact P|]. intros h rest. apply no_deps_header.
Qed.

(** A payment argument whose name goes on after a NUL byte. *)
Definition odd_pay : list Z := [0] ++ lv [] ++ enc_args [Arg (text "amount" ++ [0; 120]) [1; 100] (Prim 8)].
Definition odd_name := raw_tx 0 [] odd_pay transfer_sess.
Lemma odd_name_ok x : raw_ok x odd_name = true.
Proof. destruct x; vm_compute; reflexivity. Qed.
Lemma payment_name_refuted :
  exists pf x data v hdr dh nm rest, hash32 (p_hash pf) /\ bytes data /\ zlen data < 65535 /\
    tx_parse pf x (0 :: data) = Ret (TDeploy v) /\
    data = hdr ++ dh ++ (0 :: lv [] ++ enc_args [Arg nm [1; 100] (Prim 8)]) ++ rest /\
    zlen dh = 32 /\ p_hash pf hdr = dh /\ nm <> text "amount" /\
    exists w, tx_getItem pf x 40 (0 :: data) (TDeploy v) 4 = Ret (mkItem (text "Fee") w).
Proof.
  destruct (raw_ok_ok _ _ (odd_name_ok false)) as (B & L & v & P).
  destruct (standard_payment demo false odd_name v demo_hash32 B L P) as (h0 & d0 & _ & _ & _ & _ & w & _ & _ & _ & _ & IT & _).
  set (body := odd_pay ++ transfer_sess).
  set (hdr := [1] ++ demo_key ++ le 8 1700000000000 ++ le 8 1800000 ++ le 8 1 ++ demo_hash body ++ le 4 0 ++ [] ++ lv (text "casper")).
  exists demo, false, odd_name, v, hdr, (demo_hash hdr), (text "amount" ++ [0; 120]), (transfer_sess ++ le 4 0).
  split; [exact demo_hash32|]. split; [exact B|]. split; [exact L|]. split; [exact P|].
  split; [unfold odd_name, raw_tx; fold body; cbv zeta; fold hdr; unfold body, odd_pay; rewrite <- !app_assoc; reflexivity|].
  split; [apply demo_hash32|]. split; [reflexivity|]. split; [discriminate|]. exists w. apply (IT 40).
Qed.

(** The demonstration transfer, as raw bytes. *)
Definition plain_tx := enc_deploy d_transfer.
Lemma plain_ok x : raw_ok x plain_tx = true.
Proof. destruct x; vm_compute; reflexivity. Qed.
