(** Headings that are accepted can be shown, and fees of any length. *)
From Verif Require Import Base Zxlib Crypto Utils RuntimeArg Deploy DeployUI TxV1 TxV1UI Parser BaseFacts Spec SpecText SpecDeploy SpecTx SpecLayout SpecRaw SpecForm SpecShow SpecHead Exec ArgsFacts ReaderFacts TextFacts Demo Shows DeployArgs SessionFacts ReviewFacts TxFacts TxBody TxShow TxReview RangeFacts BindFacts BindCases SafeFacts TxInv RawFacts TxAccept FwdFacts FormFacts FormUnique FormReview FormArgs FormRun FormAccept App SpecApp AppFacts AppHist AppClaims AppSign FormSign DeploySign OklFacts HeadFacts.
Import S ST SD SX SL SR SF SW SH.

(** * TransactionV1 *)
Lemma getItem_run pf x kl data v i t : zlen data < 65535 -> tx_getItem pf x kl (t :: data) v i = fst (getItem v i (ctx_of pf x false kl data (zlen data)) 0).
Proof.
  intros L. pose proof (zlen_nonneg data). unfold tx_getItem. cbv iota. rewrite zlen_cons, u16_small by lia. replace (1 + zlen data - 1) with (zlen data) by lia. reflexivity.
Qed.
Lemma v1_clear pf x data k u v : hash32 (p_hash pf) -> bytes data -> zlen data < 65472 -> begins data k u -> tx_parse pf x (1 :: data) = Ret (TV1 v) ->
  few_args u -> form_plain x u -> form_clear x (p_time pf) u.
Proof.
  intros Hh B L Bg T FW [C1 C2]. split; [exact C1|]. intros ->. specialize (C2 eq_refl).
  pose proof (v1_heading_there _ _ _ _ _ _ Hh B L Bg T FW) as CT.
  assert (Z8 : zlen (form_head true u) = 8) by (unfold form_head; destruct (f_price u); reflexivity). rewrite Z8 in CT.
  pose proof (v1_shown_all pf true 40 data v ltac:(lia) T) as [_ SA].
  destruct (proj1 (SA 4) ltac:(lia)) as (i4 & I4). destruct (proj1 (SA 5) ltac:(lia)) as (i5 & I5).
  rewrite getItem_run in I4, I5 by lia. pose proof (parsed_form _ _ _ _ _ _ Hh B L Bg T) as ->. destruct (begins_env pf true 40 data k u Hh B L Bg) as (X & _).
  set (e := ctx_of pf true false 40 data (zlen data)) in *. cbn [getItem getNumItems] in *.
  pose proof (fpieces_of _ _ _ X) as Pc. pose proof (fa_wf _ _ _ X) as W. pose proof (fa_form _ _ _ X) as F.
  assert (LC : FormReview.clen u < 256) by (destruct C1 as [GC _]; change (@S.len Z) with (@zlen Z) in GC; unfold FormReview.clen; lia).
  pose proof (fun q o => part_run_f e k u X q o LC) as PR. change (form_obj true k u) with (form_obj (expert e) k u) in *.
  destruct F as [Fh Fi Ft Fl Fp _ _ _ _].
  unfold getItemTxV1 in I4, I5. rewrite step_check in I4, I5 by lia. rewrite step_ask in I4, I5. change (expert e) with true in I4, I5. change (form_obj true k u) with (form_obj (expert e) k u) in *.
  cbn [Z.eqb Pos.eqb andb] in I4, I5. cbv iota in I4, I5.
  rewrite (bind_Ret _ _ _ _ _ _ (PR v1_timestamp 0)) in I4. rewrite (bind_Ret _ _ _ _ _ _ (PR v1_ttl 0)) in I5.
  split.
  - pose proof (show_ttl_at _ e _ W (fp_ttl _ _ _ Pc) Fl) as ST. destruct (f_ttl u / 1000 <? 29 * 86400) eqn:E; [lia|]. rewrite ST in I5. discriminate I5.
  - split; [|exact C2]. unfold show_timestamp in I4. rewrite (bind_Ret _ _ _ _ _ _ (readU64_at _ e _ W (fp_time _ _ _ Pc) ltac:(lia))) in I4. rewrite step_ask in I4.
    change (timefmt e) with (p_time pf) in I4. destruct (p_time pf (f_time u / 1000)) as [s|]; [eauto|discriminate I4].
Qed.
Lemma v1_heading_all pf x kl data k u v i l : hash32 (p_hash pf) -> bytes data -> zlen data < 65472 -> begins data k u -> tx_parse pf x (1 :: data) = Ret (TV1 v) ->
  few_args u -> form_plain x u -> nth_error (form_head x u) i = Some l ->
  Z.of_nat i < getNumItems x (TV1 v) /\ exists it, tx_getItem pf x kl (1 :: data) (TV1 v) (Z.of_nat i) = Ret it /\ xshows (p_hash pf) (p_time pf) l it.
Proof.
  intros Hh B L Bg T FW FP Hi. pose proof (v1_clear _ _ _ _ _ _ Hh B L Bg T FW FP) as FC.
  pose proof (v1_heading_there _ _ _ _ _ _ Hh B L Bg T FW) as CT. pose proof (nth_cases _ _ _ Hi) as Li. unfold zlen in CT.
  split; [lia|]. eapply v1_heading; eauto. lia.
Qed.

(** * Deploys *)
(** ** Payments with an amount of any value *)
Definition fee_item (w y : list Z) : ditem := mkD 0 SystemPayment false 0 1 (zlen (enc_fee w y)) 0.
Definition fee_args (y : list Z) : list arg := [Arg (text "amount") y (Prim 8)].
Lemma fee_arg_ok y : Forall arg_ok (fee_args y).
Proof.
  constructor; [|constructor]. split; [reflexivity|]. cbn [a_name]. split; [vm_compute; discriminate|].
  vm_compute. intuition discriminate.
Qed.
Lemma fee_args_at w y e o : wf e -> at_ e o (enc_fee w y) ->
  at_ e (o + 1) (lv w) /\ readU32 e (o + 1 + zlen (lv w)) = (Ret 1, o + 1 + zlen (lv w) + 4) /\
  at_ e (o + 1 + zlen (lv w) + 4) (enc_arg_list (fee_args y)) /\
  zlen (enc_fee w y) = 1 + zlen (lv w) + 4 + zlen (enc_arg_list (fee_args y)).
Proof.
  intros W A. unfold enc_fee in *. apply at_cons in A. destruct A as [_ A]. apply at_app in A. destruct A as [A1 A2].
  destruct (at_args _ _ _ W A2) as (RU & A3 & ZL). split; auto. split; [exact RU|]. split; auto.
  rewrite zlen_cons, zlen_app, ZL. unfold fee_args. lia.
Qed.
Lemma fee_read w y e o : wf e -> at_ e o (enc_fee w y) -> read_payment e o = (Ret (fee_item w y), o + zlen (enc_fee w y)).
Proof.
  intros W A. pose proof (at_bound _ _ _ W A) as B.
  destruct (fee_args_at _ _ _ _ W A) as (A1 & RU & A3 & ZL).
  assert (A0 : at_ e o [0]) by (unfold enc_fee in A; apply (proj1 (at_app e o [0] _) A)).
  pose proof (zlen_nonneg (lv w)). pose proof (zlen_nonneg (enc_arg_list (fee_args y))).
  assert (T8 : typed_ok (fun t => match t with Prim 8 => true | _ => false end) "amount" (fee_args y)).
  { eexists; split; reflexivity. }
  unfold read_payment, parseDeployType. rewrite bind_assoc. step (readU8_at 0 e o W A0).
  rewrite bind_assoc, step_check by reflexivity. rewrite step_ret, step_check by reflexivity.
  assert (X : parseModuleBytes_payment (init_item 0) e (o + 1) = (Ret (fee_item w y, true), o + zlen (enc_fee w y))).
  { unfold parseModuleBytes_payment, off32. rewrite bind_assoc, step_get_off, bind_assoc, step_ask, step_ret.
    step (parse_item_at _ e _ W A1). step RU.
    assert (Y : parseSystemPayment (init_item 0) 1 e (o + 1 + zlen (lv w) + 4)
                = (Ret (add_runtime 1 (set_generic false (init_item 0)), true), o + 1 + zlen (lv w) + 4)).
    { unfold parseSystemPayment. change (1 =? 0) with false. cbv iota.
      assert (C : checkForSystemPaymentArgs 1 e (o + 1 + zlen (lv w) + 4) = (Ret tt, o + 1 + zlen (lv w) + 4)).
      { unfold checkForSystemPaymentArgs. rewrite step_check by reflexivity.
        exact (CHECK_ok e W (fee_args y) (fee_arg_ok y) _ A3 _ _ _ decides_u512 T8). }
      rewrite (step_try_ok _ _ _ _ _ _ C). reflexivity. }
    step Y. step (parseRuntimeArgs_at (fee_args y) e _ W (args_supported _ (fee_arg_ok y)) A3).
    step (total_at (o + 1) e (o + 1 + zlen (lv w) + 4 + zlen (enc_arg_list (fee_args y))) 0 ltac:(lia) ltac:(lia) ltac:(lia)).
    cbv [ret]. apply pair_ret; [|lia]. unfold fee_item. dcbn. cbn [fst snd]. f_equal. f_equal. lia. }
  step X. cbn [snd fst]. rewrite step_check by reflexivity. reflexivity.
Qed.

(** An amount of any length: all bytes but the first, and of this number the
    last 256 digits. *)
Lemma motes_any b bs e o :
  wf e -> at_ e o (b :: bs) -> o + zlen (b :: bs) < blen e ->
  exists s, display_runtimeArgMotes TAG_U512 (zlen (b :: bs)) e o = (Ret (VPaged s), o) /\ motes_text (value bs mod 10 ^ 256) s.
Proof.
  intros W H Hb. pose proof (at_bound _ _ _ W H) as B. rewrite zlen_cons in *. pose proof (zlen_nonneg bs). pose proof (wf_max e W).
  assert (P0 : 0 < 10 ^ 256) by (apply Z.pow_pos_nonneg; lia).
  destruct (motes_ok (value bs mod 10 ^ 256) ltac:(apply Z.mod_pos_bound; exact P0)) as (s & E & T).
  exists s. split; [|exact T]. unfold display_runtimeArgMotes.
  step (display_pre_ok (1 + zlen bs) e o ltac:(lia) ltac:(lia) ltac:(lia) ltac:(lia)).
  change (TAG_U512 =? TAG_U32) with false. change (TAG_U512 =? TAG_U64) with false.
  change (TAG_U512 =? TAG_U512) with true. cbv iota.
  apply at_cons in H; destruct H as [_ H]. unfold amount_bignum. rewrite step_get_off, (step_at _ _ bs) by (auto; lia).
  unfold bignum_text. rewrite le_val_value. change (2 * 128) with 256. unfold lift. rewrite E. reflexivity.
Qed.
Lemma fee_shown w y e o : wf e -> at_ e o (enc_fee w y) ->
  match y with
  | [] => exists c o', getItem_SystemPayment (fee_item w y) 0 e o = (Fail c, o')
  | _ => displays (getItem_SystemPayment (fee_item w y) 0) e o (fee_line y)
  end.
Proof.
  intros W A. pose proof (at_bound _ _ _ W A) as B. destruct (fee_args_at _ _ _ _ W A) as (A1 & RU & A3 & ZL).
  pose proof (zlen_nonneg w). pose proof (zlen_nonneg (enc_arg_list (fee_args y))). rewrite zlen_lv in *.
  set (s := o + 1 + (4 + zlen w) + 4) in *.
  assert (RUN : getItem_SystemPayment (fee_item w y) 0 e o = show_motes (str "Fee") (str "amount") 1 e s).
  { unfold getItem_SystemPayment. rewrite step_advance by lia. apply at_lv in A1. destruct A1 as [A1 _].
    step (readU32_at (zlen w) e _ W A1 ltac:(lia)). rewrite step_get_off, step_ask, step_check by lia.
    rewrite step_advance by lia. rewrite step_get_off.
    replace (o + 1 + 4 + zlen w) with (o + 1 + (4 + zlen w)) by lia.
    step RU. change (u8 (0 - UI_fixed_items (fee_item w y))) with 0.
    rewrite step_check by reflexivity. change (0 =? 0) with true. cbv iota. reflexivity. }
  pose proof (getData_at (text "amount") (fee_args y) e s W (fee_arg_ok y) A3) as G.
  assert (LK : lookup (text "amount") (fee_args y) = Some (0, Arg (text "amount") y (Prim 8))) by reflexivity.
  rewrite LK in G. destruct G as [G Ga]. pose proof (arg_value_at _ _ _ _ Ga) as AV. change (zlen (fee_args y)) with 1 in G.
  cbn [a_val a_ty] in AV, G. change (tag (Prim 8)) with TAG_U512 in G. set (q := s + 0 + val_off (Arg (text "amount") y (Prim 8))) in *.
  apply at_app in AV. destruct AV as [AV AT]. pose proof (at_bound _ _ _ W AV) as BV. pose proof (at_bound _ _ _ W AT) as BT. change (zlen (enc_type (Prim 8))) with 1 in BT.
  pose proof (zlen_nonneg y) as NY. pose proof (wf_max e W) as MX.
  destruct y as [|b bs].
  - exists parser_unexpected_error, q. rewrite RUN. unfold show_motes. change (str "amount") with (text "amount"). step G. cbn [fst snd]. apply bind_Fail.
    unfold display_runtimeArgMotes. apply bind_Fail. unfold display_pre. change (zlen (@nil Z)) with 0 in *. rewrite step_get_off, step_ask, step_check by (rewrite u32_small; lia). reflexivity.
  - destruct (motes_any b bs e q W AV ltac:(lia)) as (t & D & T). exists (mkItem (str "Fee") (VPaged t)), q. rewrite RUN. split.
    + unfold show_motes. change (str "amount") with (text "amount"). step G. cbn [fst snd]. step D. reflexivity.
    + split; [reflexivity|]. exists t. split; [exact T|reflexivity].
Qed.

(** ** The heading *)
Lemma fee_obj e h w y v o2 : wf e -> good_header h -> at_ e 0 (enc_header h) -> at_ e (zlen (enc_header h) + 32) (enc_fee w y) ->
  parser_read_deploy e 0 = (Ret v, o2) -> dheader v = hdr h /\ Deploy.payment v = fee_item w y.
Proof.
  intros W G AH AP H. destruct (header_at_ok e _ W G AH) as [HL HPK HDL HK HT1 HT2 HG HB HD HC HALL HEND].
  pose proof (at_bound _ _ _ W AP) as Bp. pose proof (zlen_nonneg (enc_header h)). pose proof (zlen_nonneg (enc_fee w y)).
  pose proof (wf_max e W). unfold parser_read_deploy in H. rewrite step_ask, step_check in H by lia.
  assert (A0 : at_ e 0 [h_alg h]) by (apply (proj1 (at_app e 0 [h_alg h] _)) in HK; tauto).
  rewrite (bind_Ret _ _ _ _ _ _ (readU8_at _ e _ W A0)) in H. pose proof (gh_alg _ G) as GA. rewrite step_check in H by lia.
  pose proof (zlen_nonneg (h_deps h)). pose proof (zlen_nonneg (h_chain h)). pose proof (zlen_nonneg (h_key h)).
  assert (RH : forall o, read_header_counts (h_alg h) e o = (Ret (hdr h), pubkeyLen (hdr h) + 56 + depsLen (hdr h) + 4)).
  { intros o. unfold read_header_counts. rewrite (index_at _ _ _ _ _ _ _ W HD) by reflexivity.
    rewrite zlen_lv in HEND. step (readU32_at _ e _ W HD ltac:(lia)).
    rewrite (index_at _ _ _ _ _ _ _ W HC) by reflexivity.
    apply at_lv in HC. destruct HC as [HC _]. step (readU32_at _ e _ W HC ltac:(lia)). reflexivity. }
  rewrite (bind_Ret _ _ _ _ _ _ (RH (0 + 1))) in H. rewrite HL in H. change BLAKE2B_256_SIZE with 32 in H. rewrite step_set_off in H by lia.
  rewrite (bind_Ret _ _ _ _ _ _ (fee_read _ _ e _ W AP)) in H.
  bx H t o3 Q1. bx H s o4 Q2. apply ret_inv in H. destruct H as [-> _]. split; reflexivity.
Qed.

Lemma deploy_heading e h w y dh v i l o : wf e -> good_header h -> y <> [] -> at_ e 0 (enc_header h ++ dh ++ enc_fee w y) -> zlen dh = 32 ->
  dheader v = hdr h -> Deploy.payment v = fee_item w y -> expert_ok (expert e) (timefmt e) h -> i < getNumItemsDeploy (expert e) v ->
  In (i, l) (deploy_head (expert e) h dh (fee_line y)) -> displays (getItemDeploy v i) e o l.
Proof.
  intros W G Pa A Ld Ev Ep EX Li Hi. rewrite !at_app, Ld in A. destruct A as (AH & AX & AP). rewrite Z.add_0_l in *.
  destruct (header_at_ok e _ W G AH) as [HL HPK HDL HK HT1 HT2 HG HB HD HC HALL HEND]. rewrite zlen_lv in HEND.
  destruct G as [Ga Gk Gt Gl Gg Gb Gd Gc]. change (S.len (h_key h)) with (zlen (h_key h)) in Gk.
  pose proof (zlen_nonneg (h_deps h)) as ND. pose proof (zlen_nonneg (h_chain h)) as NC. pose proof (at_bound _ _ _ W AP) as Bp. pose proof (wf_max e W).
  pose proof (zlen_nonneg (enc_fee w y)) as NP. pose proof (zlen_nonneg (enc_header h)) as NH.
  assert (NK : 32 <= zlen (h_key h) <= 33) by (rewrite Gk; unfold key_len; destruct Ga as [-> | ->]; cbn; lia).
  assert (Fee : forall j, getItemDeploy v i e o = bind (set_off (zlen (enc_header h) + 32)) (fun _ => getItem_SystemPayment (fee_item w y) 0) e o ->
     j = i -> displays (getItemDeploy v j) e o (fee_line y)).
  { intros j E ->. unfold displays. rewrite E, step_set_off by lia. pose proof (fee_shown w y e _ W AP) as FS. destruct y; [contradiction|exact FS]. }
  unfold deploy_head in Hi. apply in_app_or in Hi. destruct Hi as [Hi|Hi].
  - cbn [In] in Hi. unfold getItemDeploy, displays. rewrite step_ask, step_check by lia. rewrite Ev, HL.
    destruct Hi as [Hi|[Hi|[Hi|[]]]]; assert (i = fst (i, l)) as Ei by reflexivity; assert (l = snd (i, l)) as El by reflexivity; rewrite <- Hi in Ei, El; cbn [fst snd] in Ei, El; subst i l; clear Hi; ground_eqb.
    + rewrite step_set_off by lia. rewrite step_get_off.
      eexists _, _. split; [rewrite (bind_Ret _ _ _ _ _ _ (parser_printBytes_at dh e _ 32 _ W AX (eq_sym Ld) ltac:(lia))); reflexivity | split; reflexivity].
    + rewrite (index_at _ _ _ _ _ _ _ W HC) by reflexivity. rewrite step_get_off.
      apply at_lv in HC. destruct HC as [_ HC].
      replace (4 + (pubkeyLen (hdr h) + 56 + depsLen (hdr h))) with (pubkeyLen (hdr h) + 56 + depsLen (hdr h) + 4) by lia.
      cbn [lenChainName hdr]. apply show_text_at; auto.
    + rewrite (index_at _ _ _ _ _ _ _ W HK) by reflexivity. rewrite step_get_off.
      eexists _, _. split; [rewrite (bind_Ret _ _ _ _ _ _ (parser_printAddress_at _ _ e 0 (pubkeyLen (hdr h)) 0 W HK ltac:(rewrite HPK, zlen_cons; reflexivity) ltac:(lia))); reflexivity | split; reflexivity].
  - assert (FE : i = (if expert e then 8 else 4) -> getItemDeploy v i e o = bind (set_off (zlen (enc_header h) + 32)) (fun _ => getItem_SystemPayment (fee_item w y) 0) e o).
    { intros Ei. unfold getItemDeploy. rewrite step_ask, step_check by lia. rewrite Ev, HL, Ep, Ei. destruct (expert e); ground_eqb; reflexivity. }
    destruct (expert e) eqn:EE; cbn [In] in Hi.
    + destruct (EX eq_refl) as [ET [ts ES]].
      destruct Hi as [Hi|[Hi|[Hi|[Hi|[Hi|[]]]]]]; assert (i = fst (i, l)) as Ei by reflexivity; assert (l = snd (i, l)) as El by reflexivity; rewrite <- Hi in Ei, El; cbn [fst snd] in Ei, El; subst i l; clear Hi;
        [..|apply Fee; auto]; unfold getItemDeploy, displays; rewrite step_ask, EE, step_check by lia; rewrite Ev, HL; ground_eqb.
      * rewrite (index_at _ _ _ _ _ _ _ W HT1) by reflexivity. eexists _, _. split.
        -- unfold show_timestamp. step (readU64_at _ e _ W HT1 ltac:(lia)). rewrite step_ask, ES. reflexivity.
        -- split; [reflexivity|]. exists ts; auto.
      * rewrite (index_at _ _ _ _ _ _ _ W HT2) by reflexivity.
        pose proof (show_ttl_at (h_ttl h) e _ W HT2 Gl) as ST. replace (h_ttl h / 1000 <? 29 * 86400) with true in ST by lia.
        destruct ST as (s & ST & TT). eexists _, _. split; [exact ST|]. split; [reflexivity|]. exists s; auto.
      * rewrite (index_at _ _ _ _ _ _ _ W HG) by reflexivity. eexists _, _. split.
        -- step (readU64_at _ e _ W HG ltac:(lia)). reflexivity.
        -- split; [reflexivity|]. exists (dec (h_gas h)). split; [apply dec_decimal; lia | reflexivity].
      * rewrite (index_at _ _ _ _ _ _ _ W HD) by reflexivity. eexists _, _. split.
        -- step (readU32_at _ e _ W HD ltac:(lia)). reflexivity.
        -- split; [reflexivity|]. exists (dec (zlen (h_deps h))). split; [apply dec_decimal; lia | reflexivity].
    + destruct Hi as [Hi|[]]. assert (i = fst (i, l)) as Ei by reflexivity; assert (l = snd (i, l)) as El by reflexivity; rewrite <- Hi in Ei, El; cbn [fst snd] in Ei, El; subst i l. apply Fee; auto.
Qed.

Lemma at_start e a b : mem e = a ++ b -> at_ e 0 a.
Proof. intros E. apply slice_Some. exists [], b. rewrite E. auto. Qed.

(** Date and lifetime can be shown, and there is an amount, if the bytes are accepted. *)
Lemma deploy_clear pf x data h dh w y more v : hash32 (p_hash pf) -> bytes data -> zlen data < 65535 ->
  data = enc_header h ++ dh ++ enc_fee w y ++ more -> zlen dh = 32 -> good_header h ->
  tx_parse pf x (0 :: data) = Ret (TDeploy v) -> dheader v = hdr h -> Deploy.payment v = fee_item w y ->
  expert_ok x (p_time pf) h /\ y <> [].
Proof.
  intros Hh B L Ed Ld G T Ev Ep. destruct (shown_all pf x 40 data v Hh B L T) as [CT SA].
  set (e := ctx_of pf x false 40 data (zlen data)). assert (W : wf e) by (apply wf_ctx; auto; lia).
  assert (A : at_ e 0 (enc_header h ++ dh ++ enc_fee w y)) by (eapply at_start; cbn [mem e ctx_of]; rewrite Ed, <- !app_assoc; reflexivity).
  rewrite !at_app, Ld, Z.add_0_l in A. destruct A as (AH & AX & AP).
  destruct (header_at_ok e _ W G AH) as [HL HPK HDL HK HT1 HT2 HG HB HD HC HALL HEND]. destruct G as [Ga Gk Gt Gl Gg Gb Gd Gc].
  pose proof (at_bound _ _ _ W AP) as Bp. pose proof (zlen_nonneg (enc_header h)). pose proof (zlen_nonneg (enc_fee w y)). pose proof (wf_max e W).
  cbn [getNumItems] in *. split.
  - intros ->. destruct (proj1 (SA 4) ltac:(lia)) as (i4 & I4). destruct (proj1 (SA 5) ltac:(lia)) as (i5 & I5).
    rewrite getItem_run in I4, I5 by lia. fold e in I4, I5. cbn [getItem] in I4, I5.
    unfold getItemDeploy in I4, I5. rewrite step_ask in I4, I5. change (expert e) with true in I4, I5. rewrite step_check in I4, I5 by lia. rewrite Ev in I4, I5.
    cbn [Z.eqb Pos.eqb andb] in I4, I5. cbv iota in I4, I5.
    rewrite (index_at _ _ _ _ _ _ _ W HT1) in I4 by reflexivity. rewrite (index_at _ _ _ _ _ _ _ W HT2) in I5 by reflexivity. split.
    + pose proof (show_ttl_at (h_ttl h) e _ W HT2 Gl) as ST. destruct (h_ttl h / 1000 <? 29 * 86400) eqn:E; [lia|]. rewrite ST in I5. discriminate I5.
    + unfold show_timestamp in I4. rewrite (bind_Ret _ _ _ _ _ _ (readU64_at _ e _ W HT1 ltac:(lia))) in I4. rewrite step_ask in I4.
      change (timefmt e) with (p_time pf) in I4. destruct (p_time pf (h_time h / 1000)) as [s|]; [eauto|discriminate I4].
  - intros ->. destruct (proj1 (SA (if x then 8 else 4)) ltac:(destruct x; lia)) as (i4 & I4). rewrite getItem_run in I4 by lia. fold e in I4. cbn [getItem] in I4.
    assert (FE : getItemDeploy v (if x then 8 else 4) e 0 = bind (set_off (zlen (enc_header h) + 32)) (fun _ => getItem_SystemPayment (fee_item w []) 0) e 0).
    { unfold getItemDeploy. rewrite step_ask. change (expert e) with x. rewrite step_check by (destruct x; lia). rewrite Ev, HL, Ep. destruct x; ground_eqb; reflexivity. }
    rewrite FE, step_set_off in I4 by lia. destruct (fee_shown w [] e _ W AP) as (c & o' & E). rewrite E in I4. discriminate I4.
Qed.
Lemma deploy_heading_shown pf x kl data h dh w y more v i l : hash32 (p_hash pf) -> bytes data -> zlen data < 65535 ->
  data = enc_header h ++ dh ++ enc_fee w y ++ more -> zlen dh = 32 -> good_header h ->
  tx_parse pf x (0 :: data) = Ret (TDeploy v) -> In (i, l) (deploy_head x h dh (fee_line y)) ->
  dh = p_hash pf (enc_header h) /\ i < getNumItems x (TDeploy v) /\
  exists it, tx_getItem pf x kl (0 :: data) (TDeploy v) i = Ret it /\ shows (p_hash pf) (p_time pf) l it.
Proof.
  intros Hh B L Ed Ld G T Hi. pose proof (accepted_deploy pf x data v Hh B L T) as AD. cbv zeta in AD.
  destruct AD as (W & o1 & o2 & t & o3 & its & o4 & hb & db & body & bh & RD & RP & _ & _ & _ & _ & Ct & _ & _ & _ & _ & _ & _ & _ & _ & S1 & S2 & H1 & _).
  set (e0 := ctx_of pf x false 40 data (zlen data)) in *.
  assert (AL : forall kl, at_ (ctx_of pf x false kl data (zlen data)) 0 (enc_header h ++ dh ++ enc_fee w y)).
  { intros kk. eapply at_start. cbn [mem ctx_of]. rewrite Ed, <- !app_assoc. reflexivity. }
  pose proof (AL 40) as A. fold e0 in A. rewrite !at_app, Ld, !Z.add_0_l in A. destruct A as (AH & AX & AP).
  destruct (fee_obj e0 h w y v o2 W G AH AP RD) as [Ev Ep].
  destruct (deploy_clear pf x data h dh w y more v Hh B L Ed Ld G T Ev Ep) as [EX Pa].
  pose proof (header_at_ok e0 _ W G AH) as HA. pose proof (ha_len _ _ HA) as HL. rewrite Ev, HL in *.
  split.
  - unfold at_ in AH, AX. change (mem e0) with data in AH, AX. rewrite Ld in AX. congruence.
  - assert (Li : i < getNumItemsDeploy x v).
    { pose proof (num_items x v) as N. rewrite Ep in N. specialize (N eq_refl eq_refl Ct). unfold deploy_head in Hi. apply in_app_or in Hi.
      destruct x; cbn [In] in Hi; repeat match type of Hi with _ \/ _ => destruct Hi as [Hi|Hi] | _ => idtac end;
        repeat match goal with H : In _ _ \/ _ |- _ => destruct H end; intuition (try congruence);
        repeat match goal with H : (_, _) = (i, l) |- _ => injection H as <- _ end; lia. }
    split; [exact Li|]. set (e := ctx_of pf x false kl data (zlen data)).
    assert (We : wf e) by (apply wf_ctx; auto; lia).
    destruct (deploy_heading e h w y dh v i l 0 We G Pa (AL kl) Ld Ev Ep EX Li Hi) as (it & o' & E & Sh).
    exists it. pose proof (zlen_nonneg data). unfold tx_getItem. cbv iota. rewrite zlen_cons, u16_small by lia. replace (1 + zlen data - 1) with (zlen data) by lia.
    cbn [getItem]. fold e. rewrite E. split; [reflexivity|exact Sh].
Qed.

(** * In histories *)
Lemma signed_heading_v1 d s tr1 e st q pre tr2 v : device_ok d -> reach d s (tr1 ++ (e, st, Signed q pre) :: tr2) -> pending st = Some (RTx (TV1 v)) -> flash_size d <= 65472 ->
  exists data, tx_data (bufs st) = 1 :: data /\ forall k u, begins data k u ->
    pre = f_hash u /\ f_hash u = p_hash (plat d) (form_payload k u) /\
    (few_args u -> zlen (form_head (expert_mode st) u) <= review_count st (RTx (TV1 v))) /\
    (few_args u -> form_plain (expert_mode st) u -> forall i l kl, nth_error (form_head (expert_mode st) u) i = Some l ->
     exists it, review_item d st (RTx (TV1 v)) kl (Z.of_nat i) = Ret it /\ xshows (p_hash (plat d)) (p_time (plat d)) l it).
Proof.
  intros D R P Fl. destruct (signing_data _ _ _ _ _ _ _ _ _ D R P) as (data & Ed & B & L & T & _). exists data. split; [exact Ed|]. intros k u Bg.
  destruct (signed_form _ _ _ _ _ _ _ _ _ D R P data k u Fl Ed Bg) as [E1 E2]. assert (Hh : hash32 (p_hash (plat d))) by apply D. assert (L' : zlen data < 65472) by lia.
  split; [exact E1|]. split; [congruence|]. split.
  - intros Fw. exact (v1_heading_there _ _ _ _ _ _ Hh B L' Bg T Fw).
  - intros Fw C i l kl Hi. cbn [review_item]. rewrite Ed. exact (proj2 (v1_heading_all _ _ kl _ _ _ _ _ _ Hh B L' Bg T Fw C Hi)).
Qed.

Lemma signed_heading_deploy d s tr1 e st q pre tr2 v : device_ok d -> reach d s (tr1 ++ (e, st, Signed q pre) :: tr2) -> pending st = Some (RTx (TDeploy v)) ->
  exists data, tx_data (bufs st) = 0 :: data /\ forall h dh w y more, data = enc_header h ++ dh ++ enc_fee w y ++ more -> zlen dh = 32 -> good_header h ->
    pre = dh /\ dh = p_hash (plat d) (enc_header h) /\
    forall i l kl, In (i, l) (deploy_head (expert_mode st) h dh (fee_line y)) -> i < review_count st (RTx (TDeploy v)) /\
     exists it, review_item d st (RTx (TDeploy v)) kl i = Ret it /\ shows (p_hash (plat d)) (p_time (plat d)) l it.
Proof.
  intros D R P. destruct (deploy_data _ _ _ _ _ _ _ _ _ D R P) as (data & Ed & B & L & T & Sl). exists data. split; [exact Ed|].
  intros h dh w y more E Ld G. assert (Hh : hash32 (p_hash (plat d))) by apply D.
  pose proof (fun i l kl => deploy_heading_shown (plat d) (expert_mode st) kl data h dh w y more v i l Hh B L E Ld G T) as SH.
  destruct (SH 0 _ 40 (or_introl eq_refl)) as (E1 & _ & it & I & Sh). split.
  - rewrite (hash_item _ _ _ _ _ pre Hh B L T Sl) in I. injection I as <-. destruct Sh as [_ Sh]. cbn in Sh. injection Sh as Sh.
    eapply cep57_inj; [| |exact Sh]; [eapply slice_bytes; eauto|rewrite E1; apply Hh].
  - split; [exact E1|]. intros i l kl Hi. destruct (SH i l kl Hi) as (_ & Li & it' & I' & Sh'). split; [exact Li|]. cbn [review_item]. rewrite Ed. eauto.
Qed.
