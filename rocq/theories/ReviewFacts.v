(** The review of a whole deploy: header, payment, validation, items. *)
From Verif Require Import Base Zxlib Crypto Utils RuntimeArg Deploy DeployUI TxV1 TxV1UI Parser BaseFacts Spec SpecText SpecDeploy SpecRaw Exec ArgsFacts ReaderFacts TextFacts Shows DeployArgs SessionFacts DelegationFacts StoredFacts ModuleFacts.
Import S ST SD.

(** The parsed header of [h]. *)
Definition hdr (h : header) : header_deploy := mkHeader (h_alg h) (zlen (h_deps h)) (zlen (h_chain h)).

Lemma zlen_deps l : Forall (fun x : list Z => S.len x = 32) l -> zlen (List.concat l) = 32 * zlen l.
Proof.
  induction 1 as [|a l Ha F IH]; [reflexivity|]. cbn [List.concat]. rewrite zlen_app, zlen_cons, IH.
  change (zlen a) with (S.len a). rewrite Ha. lia.
Qed.

Record header_at (e : env) (h : header) : Prop := {
  ha_len : header_length_deploy (hdr h) = zlen (enc_header h);
  ha_pk : pubkeyLen (hdr h) = 1 + zlen (h_key h);
  ha_dl : depsLen (hdr h) = 4 + 32 * zlen (h_deps h);
  ha_key : at_ e 0 (h_alg h :: h_key h);
  ha_time : at_ e (pubkeyLen (hdr h)) (le 8 (h_time h));
  ha_ttl : at_ e (pubkeyLen (hdr h) + 8) (le 8 (h_ttl h));
  ha_gas : at_ e (pubkeyLen (hdr h) + 8 + 8) (le 8 (h_gas h));
  ha_body : at_ e (pubkeyLen (hdr h) + 8 + 8 + 8) (h_bodyhash h);
  ha_deps : at_ e (pubkeyLen (hdr h) + 56) (le 4 (zlen (h_deps h)));
  ha_chain : at_ e (pubkeyLen (hdr h) + 56 + depsLen (hdr h)) (lv (h_chain h));
  ha_all : at_ e 0 (enc_header h);
  ha_end : pubkeyLen (hdr h) + 56 + depsLen (hdr h) + zlen (lv (h_chain h)) = zlen (enc_header h) }.

Lemma header_at_ok e h : wf e -> good_header h -> at_ e 0 (enc_header h) -> header_at e h.
Proof.
  intros W G A. pose proof (at_bound _ _ _ W A) as B. destruct G as [Ga Gk _ _ _ Gb Gd Gc].
  change (S.len (h_key h)) with (zlen (h_key h)) in Gk.
  change (S.len (h_bodyhash h)) with (zlen (h_bodyhash h)) in Gb.
  pose proof (zlen_deps _ Gd) as ZD. pose proof (zlen_nonneg (h_deps h)). pose proof (zlen_nonneg (h_chain h)).
  assert (PK : pubkeyLen (hdr h) = 1 + zlen (h_key h)) by (rewrite Gk; reflexivity).
  assert (KL : zlen (h_key h) = 32 \/ zlen (h_key h) = 33) by (rewrite Gk; unfold key_len; destruct Ga as [-> | ->]; cbn; lia).
  assert (ZE : zlen (enc_header h) = 1 + zlen (h_key h) + 56 + (4 + 32 * zlen (h_deps h)) + (4 + zlen (h_chain h))).
  { unfold enc_header. rewrite !zlen_app, !le_length, zlen_lv, ZD, Gb. change (zlen [h_alg h]) with 1. lia. }
  assert (DL : depsLen (hdr h) = 4 + 32 * zlen (h_deps h)).
  { unfold depsLen, hdr. cbn [lenDependencies]. rewrite u32_small by lia. rewrite u16_small by lia. lia. }
  pose proof A as A0. unfold enc_header in A0. rewrite !at_app, !le_length, ZD, Gb in A0. change (zlen [h_alg h]) with 1 in A0.
  change (S.len (h_deps h)) with (zlen (h_deps h)) in A0. cbn [Z.of_nat Pos.of_succ_nat Pos.succ] in A0.
  destruct A0 as (A1 & A2 & A3 & A4 & A5 & A6 & A7 & A8 & A9).
  constructor; auto.
  - unfold header_length_deploy. rewrite DL, PK, ZE. unfold hdr; cbn [lenChainName].
    rewrite (u16_small (4 + _)) by lia. apply u16_small. lia.
  - apply at_cons. apply at_cons in A1. split; [tauto | exact A2].
  - rewrite PK. exact A3.
  - rewrite PK. exact A4.
  - rewrite PK. exact A5.
  - rewrite PK. exact A6.
  - rewrite PK. replace (1 + zlen (h_key h) + 56) with (0 + 1 + zlen (h_key h) + 8 + 8 + 8 + 32) by lia. exact A7.
  - rewrite PK, DL. replace (1 + zlen (h_key h) + 56 + (4 + 32 * zlen (h_deps h))) with (0 + 1 + zlen (h_key h) + 8 + 8 + 8 + 32 + 4 + 32 * zlen (h_deps h)) by lia. exact A9.
  - rewrite PK, DL, ZE, zlen_lv. lia.
Qed.

Lemma index_at {B} h p i bs e o (k : unit -> P B) :
  wf e -> at_ e i bs ->
  i = match p with
      | header_pubkey => 0 | header_timestamp => pubkeyLen h | header_ttl => pubkeyLen h + 8
      | header_gasprice => pubkeyLen h + 8 + 8 | header_bodyhash => pubkeyLen h + 8 + 8 + 8
      | header_deps => pubkeyLen h + 56 | header_chainname => pubkeyLen h + 56 + depsLen h
      end ->
  bind (index_headerpart_deploy h p) k e o = k tt e i.
Proof.
  intros W A E. pose proof (at_bound _ _ _ W A) as B0. pose proof (zlen_nonneg bs).
  unfold index_headerpart_deploy. rewrite <- E. rewrite bind_assoc, step_set_off by lia.
  rewrite bind_assoc, step_get_off, bind_assoc, step_ask, step_check by lia. reflexivity.
Qed.

Definition pay_item (p : payment) : ditem := mkD 0 SystemPayment false 0 1 (zlen (enc_payment p)) 0.

Lemma payment_arg_ok p : Forall arg_ok (payment_args p).
Proof.
  constructor; [|constructor]. split; [reflexivity|]. cbn [a_name]. split; [vm_compute; discriminate|].
  vm_compute. intuition discriminate.
Qed.

Lemma payment_args_at p e o : wf e -> at_ e o (enc_payment p) ->
  at_ e (o + 1) (lv (p_code p)) /\
  readU32 e (o + 1 + zlen (lv (p_code p))) = (Ret 1, o + 1 + zlen (lv (p_code p)) + 4) /\
  at_ e (o + 1 + zlen (lv (p_code p)) + 4) (enc_arg_list (payment_args p)) /\
  zlen (enc_payment p) = 1 + zlen (lv (p_code p)) + 4 + zlen (enc_arg_list (payment_args p)).
Proof.
  intros W A. unfold enc_payment in *. apply at_cons in A. destruct A as [_ A]. apply at_app in A. destruct A as [A1 A2].
  destruct (at_args _ _ _ W A2) as (RU & A3 & ZL). split; auto. split; [exact RU|]. split; auto.
  rewrite zlen_cons, zlen_app, ZL. lia.
Qed.

Lemma payment_at p e o : wf e -> at_ e o (enc_payment p) ->
  read_payment e o = (Ret (pay_item p), o + zlen (enc_payment p)).
Proof.
  intros W A. pose proof (at_bound _ _ _ W A) as B.
  destruct (payment_args_at _ _ _ W A) as (A1 & RU & A3 & ZL).
  assert (A0 : at_ e o [0]) by (unfold enc_payment in A; apply (proj1 (at_app e o [0] _) A)).
  pose proof (zlen_nonneg (lv (p_code p))). pose proof (zlen_nonneg (enc_arg_list (payment_args p))).
  assert (T8 : typed_ok (fun t => match t with Prim 8 => true | _ => false end) "amount" (payment_args p)).
  { eexists; split; reflexivity. }
  unfold read_payment, parseDeployType. rewrite bind_assoc. step (readU8_at 0 e o W A0).
  rewrite bind_assoc, step_check by reflexivity. rewrite step_ret, step_check by reflexivity.
  assert (X : parseModuleBytes_payment (init_item 0) e (o + 1) = (Ret (pay_item p, true), o + zlen (enc_payment p))).
  { unfold parseModuleBytes_payment, off32. rewrite bind_assoc, step_get_off, bind_assoc, step_ask, step_ret.
    step (parse_item_at _ e _ W A1). step RU.
    assert (Y : parseSystemPayment (init_item 0) 1 e (o + 1 + zlen (lv (p_code p)) + 4)
                = (Ret (add_runtime 1 (set_generic false (init_item 0)), true), o + 1 + zlen (lv (p_code p)) + 4)).
    { unfold parseSystemPayment. change (1 =? 0) with false. cbv iota.
      assert (C : checkForSystemPaymentArgs 1 e (o + 1 + zlen (lv (p_code p)) + 4) = (Ret tt, o + 1 + zlen (lv (p_code p)) + 4)).
      { unfold checkForSystemPaymentArgs. rewrite step_check by reflexivity.
        exact (CHECK_ok e W (payment_args p) (payment_arg_ok p) _ A3 _ _ _ decides_u512 T8). }
      rewrite (step_try_ok _ _ _ _ _ _ C). reflexivity. }
    step Y. step (parseRuntimeArgs_at (payment_args p) e _ W (args_supported _ (payment_arg_ok p)) A3).
    step (total_at (o + 1) e (o + 1 + zlen (lv (p_code p)) + 4 + zlen (enc_arg_list (payment_args p))) 0 ltac:(lia) ltac:(lia) ltac:(lia)).
    cbv [ret]. apply pair_ret; [|lia]. unfold pay_item. dcbn. cbn [fst snd]. f_equal. f_equal. lia. }
  step X. cbn [snd fst]. rewrite step_check by reflexivity. reflexivity.
Qed.

Lemma fee_at p e o : wf e -> at_ e o (enc_payment p) -> zlen (p_amount p) <= 64 ->
  displays (getItem_SystemPayment (pay_item p) 0) e o (ln "Fee" (Motes (value (p_amount p)))).
Proof.
  intros W A L. pose proof (at_bound _ _ _ W A) as B.
  destruct (payment_args_at _ _ _ W A) as (A1 & RU & A3 & ZL).
  pose proof (zlen_nonneg (p_code p)). pose proof (zlen_nonneg (enc_arg_list (payment_args p))). rewrite zlen_lv in *.
  unfold displays, getItem_SystemPayment. rewrite step_advance by lia.
  apply at_lv in A1. destruct A1 as [A1 _].
  step (readU32_at (zlen (p_code p)) e _ W A1 ltac:(lia)). rewrite step_get_off, step_ask, step_check by lia.
  rewrite step_advance by lia. rewrite step_get_off.
  replace (o + 1 + 4 + zlen (p_code p)) with (o + 1 + (4 + zlen (p_code p))) by lia.
  step RU. change (u8 (0 - UI_fixed_items (pay_item p))) with 0.
  rewrite step_check by reflexivity. change (0 =? 0) with true. cbv iota. cbn [dgeneric pay_item negb UI_runtime_items].
  apply (show_motes_at "Fee" "amount" is_amount_type (payment_args p)); auto using payment_arg_ok.
  unfold want. assert (FA : find_arg (text "amount") (payment_args p) = Some (Arg (text "amount") (S.len (p_amount p) :: p_amount p) (Prim 8))) by reflexivity.
  rewrite FA. cbn [a_ty a_val]. unfold only, is_amount_type, amount_view, big_number. cbn [a_ty a_val].
  change (S.len (p_amount p)) with (zlen (p_amount p)).
  replace ((zlen (p_amount p) =? zlen (p_amount p)) && (zlen (p_amount p) <=? 64)) with true by lia. reflexivity.
Qed.

(** * Assembling a deploy *)
(** A well-formed deploy, apart from its approvals; [r] lies behind it. *)
Record core (H : list Z -> list Z) (d : SD.deploy) : Prop := {
  co_header : good_header (d_header d);
  co_hash : d_hash d = H (enc_header (d_header d));
  co_hlen : S.len (d_hash d) = 32;
  co_body : h_bodyhash (d_header d) = H (enc_body d);
  co_pay : S.len (p_amount (d_payment d)) <= 64;
  co_session : good_session (d_session d) }.
Record follows (x : bool) (d : SD.deploy) (n : Z) (r : list Z) : Prop := {
  fo_n : 0 <= n < 2 ^ 32;
  fo_expert : x = true -> exists post, r = le 4 n ++ post;
  fo_module : forall w l, d_session d = Module w l -> exists post, r = le 4 n ++ post /\ tail_ok n post }.
Definition enc_signed (d : SD.deploy) : list Z := enc_header (d_header d) ++ d_hash d ++ enc_body d.
Record deploy_at (e : env) (d : SD.deploy) (n : Z) (r : list Z) : Prop := {
  da_wf : wf e; da_nw : wasm e = false; da_good : core (hash e) d; da_fol : follows (expert e) d n r;
  da_at : at_ e 0 (enc_signed d ++ r) }.

Definition hlen (d : SD.deploy) : Z := zlen (enc_header (d_header d)).
Definition plen (d : SD.deploy) : Z := zlen (enc_payment (d_payment d)).
Definition slen (d : SD.deploy) : Z := zlen (enc_session (d_session d)).
Definition tail (d : SD.deploy) : list Z :=
  le 4 (zlen (d_approvals d)) ++ List.concat (List.map enc_approval (d_approvals d)).

Lemma pieces e d n r : deploy_at e d n r ->
  at_ e 0 (enc_header (d_header d)) /\ at_ e (hlen d) (d_hash d) /\
  at_ e (hlen d + 32) (enc_body d) /\
  at_ e (hlen d + 32) (enc_payment (d_payment d)) /\
  at_ e (hlen d + 32 + plen d) (enc_session (d_session d) ++ r).
Proof.
  intros [W _ G _ A]. unfold enc_signed in A. rewrite <- !app_assoc, !at_app in A. destruct A as (A1 & A2 & A3 & A4).
  pose proof (co_hlen _ _ G) as HL. change (S.len (d_hash d)) with (zlen (d_hash d)) in HL. rewrite HL in *.
  fold (hlen d) in *. rewrite Z.add_0_l in *. split; auto. split; auto. split; auto.
  pose proof A3 as A3'. unfold enc_body in A3'. apply at_app in A3'. destruct A3' as [A6 A7]. split; auto.
  apply at_app. split; [exact A7|].
  unfold enc_body in A4. rewrite zlen_app in A4. fold (plen d) (slen d) in A4.
  fold (slen d). replace (hlen d + 32 + plen d + slen d) with (hlen d + 32 + (plen d + slen d)) by lia. auto.
Qed.

Lemma enc_approvals_len l : Forall good_approval l -> zlen l <= zlen (List.concat (List.map enc_approval l)).
Proof.
  induction 1 as [|a l Ha F IH]; [unfold zlen; cbn; lia|]. cbn [List.map List.concat]. rewrite zlen_cons, zlen_app.
  unfold enc_approval at 1. cbn [app]. rewrite zlen_cons. pose proof (zlen_nonneg (ap_key a ++ ap_alg a :: ap_sig a)). lia.
Qed.

Lemma tail_good H d : good_deploy H d -> tail_ok (zlen (d_approvals d)) (List.concat (List.map enc_approval (d_approvals d))).
Proof.
  intros G. pose proof (gd_napp _ _ G) as N. change (S.len (d_approvals d)) with (zlen (d_approvals d)) in N.
  pose proof (gd_approvals _ _ G) as F. constructor.
  - pose proof (zlen_nonneg (d_approvals d)). lia.
  - apply enc_approvals_len; auto.
  - intros b r E. destruct (d_approvals d) as [|a l]; [discriminate E|].
    cbn [List.map List.concat enc_approval app] in E. inversion E; subst. inversion F as [|? ? Ha]; subst. apply Ha.
Qed.
Lemma good_core H d : good_deploy H d -> core H d.
Proof. intros []. constructor; auto. Qed.
Lemma good_follows H d x : good_deploy H d -> follows x d (zlen (d_approvals d)) (tail d).
Proof.
  intros G. pose proof (gd_napp _ _ G) as N. change (S.len (d_approvals d)) with (zlen (d_approvals d)) in N. pose proof (zlen_nonneg (d_approvals d)).
  constructor; [lia|intros _; eexists; reflexivity|]. intros w l _. eexists. split; [reflexivity|eapply tail_good, G].
Qed.

(** The parsed session, as a function of the mode. *)
Definition session_result (x : bool) (o : Z) (s : session) : ditem * Z :=
  match s with
  | Module w l => (module_item x l (o + 1 + (4 + zlen w) + 4) (1 + (4 + zlen w + (4 + zlen (enc_arg_list l)))), 0)
  | Stored t ep l =>
      (stored_item x (ttype t) ep l (o + 1 + zlen (tbody t) + zlen (lv ep)) (zlen (enc_session (Stored t ep l))),
       o + 1 + zlen (tbody t))
  | SD.Transfer l =>
      (mkD 5 NativeTransfer false 0 (if x then zlen l else 2) (zlen (enc_session (SD.Transfer l))) 0, 0)
  end.

Lemma session_at e d n r lines : deploy_at e d n r ->
  session_review (hash e) (expert e) (d_session d) = Some lines ->
  session_ok e (hlen d + 32 + plen d) (d_session d) lines (session_result (expert e) (hlen d + 32 + plen d) (d_session d)).
Proof.
  intros D R. pose proof (pieces _ _ _ _ D) as (_ & _ & _ & _ & A). pose proof (da_wf _ _ _ _ D) as W. pose proof (da_nw _ _ _ _ D) as NW. pose proof (da_good _ _ _ _ D) as G.
  pose proof (co_session _ _ G) as [GA GS]. apply good_arg_ok in GA.
  destruct (d_session d) as [w l|t ep l|l] eqn:ES; cbn [args_of] in GA.
  - destruct (fo_module _ _ _ _ (da_fol _ _ _ _ D) w l ES) as (post & -> & T). apply (module_session e _ w l lines n post); auto.
  - destruct GS as [GT GE]. apply at_app in A. destruct A as [A _]. apply stored_session; auto.
  - apply at_app in A. destruct A as [A _]. apply transfer_session; auto.
Qed.

Lemma enc_session_hd s : exists r, enc_session s = stype s :: r.
Proof. destruct s as [w l|[h|n|h v|n v] ep l|l]; cbn; eexists; reflexivity. Qed.

Lemma body_bound e d n r : deploy_at e d n r ->
  0 <= hlen d /\ 0 <= plen d /\ 0 <= slen d /\ hlen d + 32 + plen d + slen d <= blen e < 65536.
Proof.
  intros D. pose proof (pieces _ _ _ _ D) as (_ & _ & _ & _ & A). pose proof (da_wf _ _ _ _ D) as W.
  apply at_app in A. destruct A as [A _]. apply at_bound in A; auto. fold (slen d) in A.
  pose proof (wf_max e W). unfold hlen, plen, slen in *.
  pose proof (zlen_nonneg (enc_header (d_header d))). pose proof (zlen_nonneg (enc_payment (d_payment d))).
  pose proof (zlen_nonneg (enc_session (d_session d))). lia.
Qed.

Lemma deploy_parse e d n tl lines : deploy_at e d n tl ->
  session_review (hash e) (expert e) (d_session d) = Some lines ->
  let r := session_result (expert e) (hlen d + 32 + plen d) (d_session d) in
  session_ok e (hlen d + 32 + plen d) (d_session d) lines r /\
    parser_read_deploy e 0 = (Ret (mkDeploy (hdr (d_header d)) (pay_item (d_payment d)) (fst r) (snd r)),
                              hlen d + 32 + plen d + slen d).
Proof.
  intros D R r. pose proof (session_at _ _ _ _ _ D R) as SO. fold r in SO. split; [exact SO|].
  pose proof (pieces _ _ _ _ D) as (AH & AX & AB & AP & AS). pose proof (body_bound _ _ _ _ D) as BB.
  pose proof (da_wf _ _ _ _ D) as W. pose proof (da_good _ _ _ _ D) as G.
  pose proof (header_at_ok e _ W (co_header _ _ G) AH) as HA. destruct HA as [HL HPK HDL HK HT1 HT2 HG HB HD HC HALL HEND].
  fold (hlen d) in HL.
  unfold parser_read_deploy. rewrite step_ask, step_check by lia.
  assert (A0 : at_ e 0 [h_alg (d_header d)]) by (apply (proj1 (at_app e 0 [h_alg (d_header d)] _)) in HK; tauto).
  step (readU8_at _ e _ W A0). pose proof (gh_alg _ (co_header _ _ G)) as GA. rewrite step_check by lia.
  pose proof (zlen_nonneg (h_deps (d_header d))). pose proof (zlen_nonneg (h_chain (d_header d))). pose proof (zlen_nonneg (h_key (d_header d))).
  assert (RH : forall o, read_header_counts (h_alg (d_header d)) e o
               = (Ret (hdr (d_header d)), pubkeyLen (hdr (d_header d)) + 56 + depsLen (hdr (d_header d)) + 4)).
  { intros o. unfold read_header_counts. rewrite (index_at _ _ _ _ _ _ _ W HD) by reflexivity.
    fold (hlen d) in HEND. rewrite zlen_lv in HEND.
    step (readU32_at _ e _ W HD ltac:(lia)).
    rewrite (index_at _ _ _ _ _ _ _ W HC) by reflexivity.
    apply at_lv in HC. destruct HC as [HC _].
    step (readU32_at _ e _ W HC ltac:(lia)). reflexivity. }
  step (RH (0 + 1)). rewrite HL. change BLAKE2B_256_SIZE with 32. rewrite step_set_off by lia.
  step (payment_at _ e _ W AP). fold (plen d).
  destruct (enc_session_hd (d_session d)) as [rs ES].
  assert (AT : at_ e (hlen d + 32 + plen d) [stype (d_session d)]).
  { apply at_app in AS. destruct AS as [AS _]. rewrite ES in AS. apply (proj1 (at_app e _ [stype (d_session d)] rs)) in AS. tauto. }
  unfold parseDeployType at 1. rewrite bind_assoc. step (readU8_at _ e _ W AT).
  rewrite bind_assoc, step_check by (destruct (d_session d) as [| [] |]; reflexivity). rewrite step_ret.
  step (so_parse _ _ _ _ _ SO). reflexivity.
Qed.

Lemma deploy_valid e d n tl r lines o : deploy_at e d n tl -> session_ok e (hlen d + 32 + plen d) (d_session d) lines r ->
  exists o', validateTxDeploy (mkDeploy (hdr (d_header d)) (pay_item (d_payment d)) (fst r) (snd r)) e o = (Ret tt, o').
Proof.
  intros D SO.
  pose proof (pieces _ _ _ _ D) as (AH & AX & AB & AP & AS). pose proof (body_bound _ _ _ _ D) as BB.
  pose proof (da_wf _ _ _ _ D) as W. pose proof (da_good _ _ _ _ D) as G.
  pose proof (header_at_ok e _ W (co_header _ _ G) AH) as HA. destruct HA as [HL HPK HDL HK HT1 HT2 HG HB HD HC HALL HEND].
  fold (hlen d) in HL. pose proof (co_hlen _ _ G) as GH. change (S.len (d_hash d)) with (zlen (d_hash d)) in GH.
  eexists. unfold validateTxDeploy. cbn [dheader Deploy.payment Deploy.session]. rewrite HL.
  rewrite step_ask. rewrite (step_at _ _ _ _ _ _ HALL) by reflexivity. rewrite (step_at _ _ _ _ _ _ AX) by (symmetry; exact GH).
  rewrite step_check by (apply list_eqb_eq; symmetry; apply (co_hash _ _ G)).
  rewrite u16_small by lia. cbn [totalLength pay_item]. rewrite (so_total _ _ _ _ _ SO). fold (plen d) (slen d).
  rewrite u32_small by lia. rewrite (step_at _ _ _ _ _ _ AB) by (unfold enc_body; rewrite zlen_app; reflexivity).
  rewrite (index_at _ _ _ _ _ _ _ W HB) by reflexivity.
  rewrite step_get_off. pose proof (gh_bodyhash _ (co_header _ _ G)) as GB. change (S.len (h_bodyhash (d_header d))) with (zlen (h_bodyhash (d_header d))) in GB.
  rewrite (step_at _ _ _ _ _ _ HB) by (symmetry; exact GB).
  rewrite (proj2 (list_eqb_eq _ _)) by (symmetry; apply (co_body _ _ G)). reflexivity.
Qed.

Definition deploy_obj (d : SD.deploy) (r : ditem * Z) : Deploy.deploy :=
  mkDeploy (hdr (d_header d)) (pay_item (d_payment d)) (fst r) (snd r).

(** Conditions under which the header can be shown in expert mode. *)
Definition expert_ok (x : bool) (tf : Z -> option (list Z)) (h : header) : Prop :=
  x = true -> h_ttl h / 1000 < 29 * 86400 /\ exists s, tf (h_time h / 1000) = Some s.

Lemma nth_error_nil {A} i : nth_error (@nil A) i = None.
Proof. destruct i; reflexivity. Qed.
Ltac some_inj H :=
  match type of H with Some ?x = Some ?y => assert (y = x) by congruence; subst y; clear H end.

Lemma deploy_count e d n r lines :
  session_ok e (hlen d + 32 + plen d) (d_session d) lines r ->
  getNumItemsDeploy (expert e) (deploy_obj d r) = zlen (SR.around_n (expert e) d n lines).
Proof.
  intros SO. unfold SR.around_n.
  unfold getNumItemsDeploy, deploy_obj. cbn [Deploy.payment Deploy.session UI_fixed_items UI_runtime_items pay_item].
  pose proof (so_sum _ _ _ _ _ SO). pose proof (so_few _ _ _ _ _ SO). pose proof (zlen_nonneg lines).
  destruct (expert e); rewrite u8_small by lia; unfold zlen in *; rewrite !app_length; cbn [List.length]; lia.
Qed.

Lemma nth_app2 {A} (a b : list A) i x : nth_error (a ++ b) i = Some x ->
  (i < List.length a)%nat /\ nth_error a i = Some x \/
  (List.length a <= i)%nat /\ nth_error b (i - List.length a) = Some x.
Proof.
  intros H. destruct (Nat.lt_ge_cases i (List.length a)) as [L|L].
  - left. rewrite nth_error_app1 in H; auto.
  - right. rewrite nth_error_app2 in H; auto.
Qed.

Lemma show_text_at lab n e i o : wf e -> at_ e i n -> good_name 99 n ->
  displays (DISPLAY_STRING (str lab) i (zlen n)) e o (ln lab (Text n)).
Proof.
  intros W A [L N]. change (S.len n) with (zlen n) in L. eexists _, o. split.
  - unfold DISPLAY_STRING. rewrite step_check by lia. rewrite (step_at _ _ _ _ _ _ A) by reflexivity.
    unfold c_text. replace (existsb (Z.eqb 0) n || (zlen n <? 100)) with true by (rewrite orb_comm; replace (zlen n <? 100) with true by lia; reflexivity).
    rewrite step_lift. rewrite cstr_id by auto. reflexivity.
  - split; reflexivity.
Qed.

Lemma deploy_items e d n tl r lines i l o :
  deploy_at e d n tl -> session_ok e (hlen d + 32 + plen d) (d_session d) lines r ->
  expert_ok (expert e) (timefmt e) (d_header d) ->
  nth_error (SR.around_n (expert e) d n lines) i = Some l ->
  displays (getItemDeploy (deploy_obj d r) (Z.of_nat i)) e o l.
Proof.
  intros D SO EX Hi.
  pose proof (deploy_count _ _ n _ _ SO) as CNT. set (all_lines := SR.around_n (expert e) d n lines) in *.
  pose proof (pieces _ _ _ _ D) as (AH & AX & AB & AP & AS). pose proof (body_bound _ _ _ _ D) as BB.
  pose proof (da_wf _ _ _ _ D) as W. pose proof (da_good _ _ _ _ D) as G.
  pose proof (header_at_ok e _ W (co_header _ _ G) AH) as HA. destruct HA as [HL HPK HDL HK HT1 HT2 HG HB HD HC HALL HEND].
  fold (hlen d) in HL, HEND. pose proof (co_hlen _ _ G) as GH. change (S.len (d_hash d)) with (zlen (d_hash d)) in GH.
  pose proof (so_sum _ _ _ _ _ SO) as SS. pose proof (so_few _ _ _ _ _ SO) as SF. pose proof (zlen_nonneg lines) as SN.
  pose proof (so_fixed _ _ _ _ _ SO) as SX. pose proof (so_runtime _ _ _ _ _ SO) as SR.
  pose proof (nth_cases _ _ _ Hi) as Li.
  pose proof (co_header _ _ G) as [Ga Gk Gt Gl Gg Gb Gd Gc].
  change (S.len (h_key (d_header d))) with (zlen (h_key (d_header d))) in Gk.
  pose proof (zlen_nonneg (h_deps (d_header d))) as ND. pose proof (zlen_nonneg (h_chain (d_header d))) as NC.
  assert (NK : 32 <= zlen (h_key (d_header d)) <= 33) by (rewrite Gk; unfold key_len; destruct Ga as [-> | ->]; cbn; lia).
  rewrite zlen_lv in HEND.
  (* the four common lines *)
  assert (L0 : nth_error [ln "Txn hash" (Hex (d_hash d)); ln "Type" (Words (text (type_text (d_session d))));
       ln "Chain ID" (Text (h_chain (d_header d))); ln "Account" (KeyText (h_alg (d_header d)) (h_key (d_header d)))] i = Some l ->
       displays (getItemDeploy (deploy_obj d r) (Z.of_nat i)) e o l).
  { intros Hn. unfold getItemDeploy, displays. rewrite step_ask, CNT, step_check by (unfold zlen; lia).
    unfold deploy_obj at 1. cbn [dheader]. rewrite HL.
    nth_split Hn; ground_eqb.
    - rewrite step_set_off by lia. rewrite step_get_off.
      eexists _, _. split; [rewrite (bind_Ret _ _ _ _ _ _ (parser_printBytes_at (d_hash d) e (hlen d) 32 (hlen d) W AX (eq_sym GH) ltac:(lia))); reflexivity | split; reflexivity].
    - eexists _, _. split; [reflexivity|]. split; [reflexivity|].
      unfold deploy_obj. cbn [ival snd ln renders]. rewrite (so_type _ _ _ _ _ SO) by reflexivity. reflexivity.
    - cbn [dheader deploy_obj]. rewrite (index_at _ _ _ _ _ _ _ W HC) by reflexivity. rewrite step_get_off.
      apply at_lv in HC. destruct HC as [_ HC].
      replace (4 + (pubkeyLen (hdr (d_header d)) + 56 + depsLen (hdr (d_header d))))
        with (pubkeyLen (hdr (d_header d)) + 56 + depsLen (hdr (d_header d)) + 4) by lia.
      cbn [lenChainName hdr]. apply show_text_at; auto.
    - cbn [dheader deploy_obj]. rewrite (index_at _ _ _ _ _ _ _ W HK) by reflexivity. rewrite step_get_off.
      eexists _, _. split; [rewrite (bind_Ret _ _ _ _ _ _ (parser_printAddress_at _ _ e 0 (pubkeyLen (hdr (d_header d))) 0 W HK ltac:(rewrite HPK, zlen_cons; reflexivity) ltac:(lia))); reflexivity | split; reflexivity]. }
  (* fee, session and approvals, counted from [k] *)
  assert (L2 : forall k, (k = if expert e then 8 else 4)%nat -> (k <= i)%nat ->
       nth_error ([ln "Fee" (Motes (value (p_amount (d_payment d))))] ++ lines
        ++ (if expert e then [ln "Approvals #" (Number n)] else [])) (i - k) = Some l ->
       displays (getItemDeploy (deploy_obj d r) (Z.of_nat i)) e o l).
  { intros k Hk Lk Hn. unfold getItemDeploy, displays. rewrite step_ask, CNT, step_check by (unfold zlen; lia).
    assert (CNT' : zlen all_lines = if expert e then 10 + zlen lines else 5 + zlen lines).
    { rewrite <- CNT. unfold getNumItemsDeploy, deploy_obj. cbn [Deploy.payment Deploy.session UI_fixed_items UI_runtime_items pay_item].
      destruct (expert e); rewrite u8_small by lia; lia. }
    assert (Li' : Z.of_nat i < zlen all_lines) by (unfold zlen; lia).
    assert (K4 : 4 <= Z.of_nat i) by (destruct (expert e); lia).
    assert (K8 : expert e = true -> 8 <= Z.of_nat i) by (intros X; rewrite X in Hk; lia).
    replace (Z.of_nat i =? 0) with false by lia. replace (Z.of_nat i =? 1) with false by lia.
    replace (Z.of_nat i =? 2) with false by lia. replace (Z.of_nat i =? 3) with false by lia.
    assert (KX : forall c, c < 8 -> expert e && (Z.of_nat i =? c) = false).
    { intros c Hc. destruct (expert e); [cbn; specialize (K8 eq_refl); lia | reflexivity]. }
    rewrite !KX by lia.
    assert (KN : u8 (Z.of_nat i - (if expert e then 8 else 4)) = Z.of_nat (i - k)).
    { destruct (expert e); subst k; rewrite u8_small by lia; lia. }
    rewrite KN. unfold deploy_obj at 1. cbn [dheader]. rewrite HL. rewrite step_set_off by lia.
    cbn [deploy_obj Deploy.payment Deploy.session UI_fixed_items UI_runtime_items pay_item dspecial totalLength entry_point_offset].
    change (u16 (0 + 1)) with 1. rewrite SS, (so_total _ _ _ _ _ SO). fold (plen d) (slen d).
    rewrite (u16_small (zlen lines)) by lia.
    apply nth_app2 in Hn. destruct Hn as [[Lj Hn]|[Lj Hn]].
    - cbn in Lj. assert (i - k = 0)%nat as E by lia. rewrite E in *. cbn in Hn. injection Hn as <-.
      change (Z.of_nat 0 <? 1) with true. cbv iota. change (SystemPayment =? SystemPayment) with true. cbv iota.
      apply fee_at; auto. pose proof (co_pay _ _ G) as GP. exact GP.
    - cbn [List.length] in Lj, Hn. replace (Z.of_nat (i - k) <? 1) with false by lia.
      assert (KM : u8 (Z.of_nat (i - k) - 1) = Z.of_nat (i - k - 1)).
      { rewrite u8_small; [lia|]. destruct (expert e); lia. }
      rewrite KM. rewrite step_advance by lia.
      apply nth_app2 in Hn. destruct Hn as [[Lm Hn]|[Lm Hn]].
      + replace (Z.of_nat (i - k - 1) <? zlen lines) with true by (unfold zlen; lia).
        exact (so_items _ _ _ _ _ SO _ _ Hn).
      + replace (Z.of_nat (i - k - 1) <? zlen lines) with false by (unfold zlen; lia).
        rewrite step_advance by lia.
        destruct (expert e) eqn:EE; [|rewrite nth_error_nil in Hn; discriminate Hn].
        assert (i - k - 1 - List.length lines = 0)%nat as E.
        { pose proof (nth_cases _ _ _ Hn) as Lz. cbn in Lz. lia. }
        rewrite E in Hn. cbn in Hn. injection Hn as <-.
        replace (Z.of_nat i =? zlen all_lines - 1) with true by (unfold zlen in CNT' |- *; lia). cbn [andb].
        apply at_app in AS. destruct AS as [AS AT]. fold (slen d) in AT. destruct (fo_expert _ _ _ _ (da_fol _ _ _ _ D) EE) as (post & Et). rewrite Et in AT. apply at_app in AT. destruct AT as [AT _].
        pose proof (fo_n _ _ _ _ (da_fol _ _ _ _ D)) as N.
        eexists _, _. split.
        * step (readU32_at _ e _ W AT ltac:(lia)). reflexivity.
        * split; [reflexivity|]. cbn [renders snd ln ival]. exists (dec n). split; [apply dec_decimal; lia | reflexivity]. }
  unfold all_lines, SR.around_n in Hi.
  change (S.len (h_deps (d_header d))) with (zlen (h_deps (d_header d))) in Hi.
  apply nth_app2 in Hi. destruct Hi as [[L4 Hi]|[L4 Hi]]; [apply L0; exact Hi|].
  cbn [List.length] in L4, Hi.
  destruct (expert e) eqn:EE.
  - apply nth_app2 in Hi. destruct Hi as [[L8 Hi]|[L8 Hi]].
    + destruct (EX eq_refl) as [ET [ts ES]].
      unfold getItemDeploy, displays. rewrite step_ask, EE, CNT, step_check by (unfold zlen; lia).
      remember (i - 4)%nat as j eqn:Ej. assert (i = 4 + j)%nat as -> by lia. clear Ej.
      nth_split Hi; try (rewrite nth_error_nil in Hi; discriminate Hi); cbn [Nat.add]; ground_eqb; cbn [dheader deploy_obj].
      * rewrite (index_at _ _ _ _ _ _ _ W HT1) by reflexivity. eexists _, _. split.
        -- unfold show_timestamp. step (readU64_at _ e _ W HT1 ltac:(lia)). rewrite step_ask, ES. reflexivity.
        -- split; [reflexivity|]. exists ts; auto.
      * rewrite (index_at _ _ _ _ _ _ _ W HT2) by reflexivity.
        pose proof (show_ttl_at (h_ttl (d_header d)) e _ W HT2 Gl) as ST. replace (h_ttl (d_header d) / 1000 <? 29 * 86400) with true in ST by lia.
        destruct ST as (s & ST & TT). eexists _, _. split; [exact ST|]. split; [reflexivity|]. exists s; auto.
      * rewrite (index_at _ _ _ _ _ _ _ W HG) by reflexivity. eexists _, _. split.
        -- step (readU64_at _ e _ W HG ltac:(lia)). reflexivity.
        -- split; [reflexivity|]. exists (dec (h_gas (d_header d))). split; [apply dec_decimal; lia | reflexivity].
      * rewrite (index_at _ _ _ _ _ _ _ W HD) by reflexivity. eexists _, _. split.
        -- step (readU32_at _ e _ W HD ltac:(lia)). reflexivity.
        -- split; [reflexivity|]. exists (dec (zlen (h_deps (d_header d)))). split; [apply dec_decimal; lia | reflexivity].
    + cbn [List.length] in L8, Hi. apply (L2 8%nat); auto; [lia|]. replace (i - 8)%nat with (i - 4 - 4)%nat by lia. exact Hi.
  - cbn [app] in Hi. apply (L2 4%nat); auto.
Qed.

Lemma items_ok e t lines : 
  (forall i l o, nth_error lines i = Some l -> displays (getItem t (Z.of_nat i)) e o l) ->
  forall n idx o, (idx + n <= List.length lines)%nat ->
  exists its o', items_from t (Z.of_nat idx) n e o = (Ret its, o').
Proof.
  intros D n. induction n as [|n IH]; intros idx o L; [eexists _, _; reflexivity|].
  cbn [items_from]. destruct (nth_error lines idx) as [l|] eqn:E; [|apply nth_error_None in E; lia].
  destruct (D idx l o E) as (it & o1 & H1 & _). step H1.
  replace (Z.of_nat idx + 1) with (Z.of_nat (Datatypes.S idx)) by lia.
  destruct (IH (Datatypes.S idx) o1 ltac:(lia)) as (its & o2 & H2). step H2. eexists _, _; reflexivity.
Qed.

Lemma bytes_tl d H : good_deploy H d -> bytes (enc_deploy d) /\ zlen (enc_deploy d) < 65535.
Proof.
  intros G. split; [exact (gd_bytes _ _ G)|]. pose proof (gd_size _ _ G) as S. change (S.len (enc_tx d)) with (zlen (enc_tx d)) in S.
  unfold enc_tx in S. rewrite zlen_cons in S. lia.
Qed.

Lemma deploy_env pf x kl d n r : (forall y, zlen (p_hash pf y) = 32 /\ bytes (p_hash pf y)) -> core (p_hash pf) d -> follows x d n r ->
  bytes (enc_signed d ++ r) -> zlen (enc_signed d ++ r) < 65535 ->
  deploy_at (ctx_of pf x false kl (enc_signed d ++ r) (zlen (enc_signed d ++ r))) d n r.
Proof.
  intros Hh G F B L. constructor.
  - constructor; cbn [mem blen hash ctx_of]; [reflexivity | lia | exact B | intros y; apply Hh | intros y; apply Hh].
  - reflexivity.
  - exact G.
  - exact F.
  - apply slice_Some. exists [], []. rewrite app_nil_r. split; [reflexivity | split; reflexivity].
Qed.

(** * The review of a deploy *)

(** The transaction bytes [data] are accepted, and the review consists of
    exactly the items [lines], in that order, whatever the size [kl] of the
    buffer for item names. *)
Definition reviews (pf : platform) (x : bool) (data : list Z) (lines : list line) : Prop :=
  exists t, tx_parse pf x data = Ret t /\ getNumItems x t = zlen lines /\
    forall i l, nth_error lines i = Some l -> forall kl,
      exists it, tx_getItem pf x kl data t (Z.of_nat i) = Ret it /\ shows (p_hash pf) (p_time pf) l it.

Lemma signed_review pf x d n r sl :
  (forall y, zlen (p_hash pf y) = 32 /\ bytes (p_hash pf y)) ->
  core (p_hash pf) d -> follows x d n r -> bytes (enc_signed d ++ r) -> zlen (enc_signed d ++ r) < 65535 ->
  session_review (p_hash pf) x (d_session d) = Some sl ->
  expert_ok x (p_time pf) (d_header d) ->
  reviews pf x (0 :: enc_signed d ++ r) (SR.around_n x d n sl).
Proof.
  intros Hh G F B L SR EX. set (data := enc_signed d ++ r) in *. pose proof (zlen_nonneg data).
  assert (ZT : u16 (zlen (0 :: data)) = 1 + zlen data).
  { rewrite zlen_cons, u16_small; lia. }
  pose proof (deploy_env pf x 40 d n r Hh G F B L) as D0. fold data in D0. set (e0 := ctx_of pf x false 40 data (zlen data)) in *.
  destruct (deploy_parse e0 d n r sl D0 SR) as (SO & PR). set (rr := session_result _ _ _) in SO, PR.
  assert (NE : 0 < zlen data).
  { pose proof (body_bound _ _ _ _ D0) as BB. change (blen e0) with (zlen data) in BB. lia. }
  exists (TDeploy (deploy_obj d rr)).
  assert (CN : getNumItems x (TDeploy (deploy_obj d rr)) = zlen (SR.around_n x d n sl)) by (exact (deploy_count e0 d n rr sl SO)).
  split; [|split; [exact CN|]].
  - unfold tx_parse. rewrite ZT. replace (1 + zlen data =? 0) with false by lia.
    replace (1 + zlen data =? 1) with false by lia.
    replace (1 + zlen data - 1) with (zlen data) by lia. fold e0.
    unfold parse_content. change (0 =? content_Deploy) with true. cbv iota.
    rewrite bind_assoc. step PR. fold (deploy_obj d rr). rewrite step_ret. unfold parser_validate. rewrite bind_assoc.
    destruct (deploy_valid e0 d n r rr sl (hlen d + 32 + plen d + slen d) D0 SO) as (o' & V).
    fold (deploy_obj d rr) in V. step V. rewrite bind_assoc, step_ask.
    change (expert e0) with x. rewrite CN.
    destruct (items_ok e0 (TDeploy (deploy_obj d rr)) (SR.around_n x d n sl)) with (n := Z.to_nat (zlen (SR.around_n x d n sl))) (idx := 0%nat) (o := o') as (its & o2 & HI).
    + intros i l o Hi. exact (deploy_items e0 d n r rr sl i l o D0 SO EX Hi).
    + unfold zlen. lia.
    + change (Z.of_nat 0) with 0 in HI. step HI. reflexivity.
  - intros i l Hi kl. unfold tx_getItem. cbv iota. rewrite ZT. replace (1 + zlen data - 1) with (zlen data) by lia.
    pose proof (deploy_env pf x kl d n r Hh G F B L) as D1. fold data in D1. set (e1 := ctx_of pf x false kl data (zlen data)) in *.
    destruct (deploy_parse e1 d n r sl D1 SR) as (SO1 & _). change (session_result _ _ _) with rr in SO1.
    destruct (deploy_items e1 d n r rr sl i l 0 D1 SO1 EX Hi) as (it & o' & E & SH).
    exists it. cbn [getItem]. rewrite E. split; [reflexivity | exact SH].
Qed.
Lemma deploy_review pf x d lines :
  (forall y, zlen (p_hash pf y) = 32 /\ bytes (p_hash pf y)) ->
  good_deploy (p_hash pf) d ->
  review (p_hash pf) x d = Some lines ->
  expert_ok x (p_time pf) (d_header d) ->
  reviews pf x (enc_tx d) lines.
Proof.
  intros Hh G RV EX. destruct (bytes_tl _ _ G) as [B L].
  assert (E : enc_deploy d = enc_signed d ++ tail d) by (unfold enc_deploy, enc_signed, tail; rewrite <- !app_assoc; reflexivity).
  unfold review in RV. destruct (session_review (p_hash pf) x (d_session d)) as [sl|] eqn:SR; [|discriminate]. injection RV as <-.
  unfold enc_tx. rewrite E in B, L |- *. change (around x d sl) with (SR.around_n x d (zlen (d_approvals d)) sl).
  apply signed_review; auto using good_core. eapply good_follows, G.
Qed.
