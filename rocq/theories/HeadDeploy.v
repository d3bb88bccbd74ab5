(** The lines of the header of every accepted deploy, whatever its chain name. *)
From Verif Require Import Base Zxlib Crypto Utils RuntimeArg Deploy DeployUI TxV1 TxV1UI Parser BaseFacts Spec SpecText SpecDeploy SpecTx SpecLayout SpecRaw SpecForm SpecShow SpecHead SpecWrap Exec ArgsFacts ReaderFacts TextFacts Demo Shows DeployArgs SessionFacts ReviewFacts TxFacts TxBody TxShow TxReview RangeFacts BindFacts BindCases SafeFacts TxInv RawFacts TxAccept FwdFacts FormFacts FormUnique FormReview FormArgs FormRun FormAccept App SpecApp AppFacts AppHist AppClaims AppSign FormSign DeploySign OklFacts HeadFacts HeadClear FormShow FormSeen HeadSeen.
Import S ST SD SX SL SR SF SW SH SG.

Definition name_fits (n : list Z) : Prop := zlen n < 100 \/ zlen n = 100 /\ In 0 n.
Lemma name_text lab n e i o : wf e -> at_ e i n -> name_fits n -> displays (DISPLAY_STRING (str lab) i (zlen n)) e o (ln lab (Text (before_nul n))).
Proof.
  intros W A C. eexists _, o. split.
  - unfold DISPLAY_STRING. rewrite step_check by (destruct C as [C|[C _]]; lia). rewrite (step_at _ _ _ _ _ _ A) by lia.
    unfold c_text. replace (existsb (Z.eqb 0) n || (zlen n <? 100)) with true.
    + rewrite step_lift. reflexivity.
    + symmetry. apply orb_true_iff. destruct C as [C|[_ C]]; [right; lia|left]. apply existsb_exists. exists 0. auto.
  - split; [reflexivity|]. reflexivity.
Qed.
Lemma name_accepted e i n o it o' : wf e -> at_ e i n -> DISPLAY_STRING (str "Chain ID") i (zlen n) e o = (Ret it, o') -> name_fits n.
Proof.
  intros W A H. unfold DISPLAY_STRING in H. destruct (zlen n <=? 100) eqn:E100.
  - rewrite step_check in H by lia. rewrite (step_at _ _ _ _ _ _ A) in H by lia. unfold c_text in H. unfold name_fits.
    destruct (existsb (Z.eqb 0) n || (zlen n <? 100)) eqn:E; [|discriminate H].
    apply orb_true_iff in E. destruct E as [E|E]; [|left; lia]. apply existsb_exists in E. destruct E as (z & Iz & Ez). apply Z.eqb_eq in Ez. subst z.
    destruct (Z.eq_dec (zlen n) 100); [right|left]; auto; lia.
  - unfold check in H. unfold bind at 1 in H. replace (zlen n <=? 100) with false in H. discriminate H.
Qed.
Lemma header_at_any e h : wf e -> form_header h -> at_ e 0 (enc_header h) -> ReviewFacts.header_at e h.
Proof.
  intros W G A. pose proof (at_bound _ _ _ W A) as B. destruct G as [Ga Gk _ _ _ Gb Gd].
  change (S.len (h_key h)) with (zlen (h_key h)) in Gk.
  change (S.len (h_bodyhash h)) with (zlen (h_bodyhash h)) in Gb.
  pose proof (zlen_deps _ Gd) as ZD. pose proof (zlen_nonneg (h_deps h)). pose proof (zlen_nonneg (h_chain h)).
  assert (PK : pubkeyLen (hdr h) = 1 + zlen (h_key h)) by (rewrite Gk; reflexivity).
  assert (KL : zlen (h_key h) = 32 \/ zlen (h_key h) = 33) by (rewrite Gk; unfold key_len; destruct Ga as [-> | ->]; cbn; lia).
  assert (ZE : zlen (enc_header h) = 1 + zlen (h_key h) + 56 + (4 + 32 * zlen (h_deps h)) + (4 + zlen (h_chain h))).
  { unfold enc_header. rewrite !zlen_app, !le_length, zlen_lv, ZD, Gb. change (zlen [h_alg h]) with 1. lia. }
  assert (DL : depsLen (hdr h) = 4 + 32 * zlen (h_deps h)).
  { unfold depsLen, hdr. cbn [lenDependencies]. rewrite u32_small by lia. rewrite u16_small by lia. lia. }
  pose proof A as A0. unfold enc_header in A0. rewrite !at_app, !le_length, ZD, Gb in A0. change (zlen [h_alg h]) with 1 in A0.
  change (S.len (h_deps h)) with (zlen (h_deps h)) in A0. cbn [Z.of_nat Pos.of_succ_nat Pos.succ] in A0.
  destruct A0 as (A1 & A2 & A3 & A4 & A5 & A6 & A7 & A8 & A9).
  constructor; auto.
  - unfold header_length_deploy. rewrite DL, PK, ZE. unfold hdr; cbn [lenChainName].
    rewrite (u16_small (4 + _)) by lia. apply u16_small. lia.
  - apply at_cons. apply at_cons in A1. split; [tauto | exact A2].
  - rewrite PK. exact A3.
  - rewrite PK. exact A4.
  - rewrite PK. exact A5.
  - rewrite PK. exact A6.
  - rewrite PK. replace (1 + zlen (h_key h) + 56) with (0 + 1 + zlen (h_key h) + 8 + 8 + 8 + 32) by lia. exact A7.
  - rewrite PK, DL. replace (1 + zlen (h_key h) + 56 + (4 + 32 * zlen (h_deps h))) with (0 + 1 + zlen (h_key h) + 8 + 8 + 8 + 32 + 4 + 32 * zlen (h_deps h)) by lia. exact A9.
  - rewrite PK, DL, ZE, zlen_lv. lia.
Qed.

Lemma fee_obj_any e h w y v o2 : wf e -> form_header h -> at_ e 0 (enc_header h) -> at_ e (zlen (enc_header h) + 32) (enc_fee w y) ->
  parser_read_deploy e 0 = (Ret v, o2) -> dheader v = hdr h /\ Deploy.payment v = fee_item w y.
Proof.
  intros W G AH AP H. destruct (header_at_any e _ W G AH) as [HL HPK HDL HK HT1 HT2 HG HB HD HC HALL HEND].
  pose proof (at_bound _ _ _ W AP) as Bp. pose proof (zlen_nonneg (enc_header h)). pose proof (zlen_nonneg (enc_fee w y)).
  pose proof (wf_max e W). unfold parser_read_deploy in H. rewrite step_ask, step_check in H by lia.
  assert (A0 : at_ e 0 [h_alg h]) by (apply (proj1 (at_app e 0 [h_alg h] _)) in HK; tauto).
  rewrite (bind_Ret _ _ _ _ _ _ (readU8_at _ e _ W A0)) in H. pose proof (fh_alg _ G) as GA. rewrite step_check in H by lia.
  pose proof (zlen_nonneg (h_deps h)). pose proof (zlen_nonneg (h_chain h)). pose proof (zlen_nonneg (h_key h)).
  assert (RH : forall o, read_header_counts (h_alg h) e o = (Ret (hdr h), pubkeyLen (hdr h) + 56 + depsLen (hdr h) + 4)).
  { intros o. unfold read_header_counts. rewrite (index_at _ _ _ _ _ _ _ W HD) by reflexivity.
    rewrite zlen_lv in HEND. step (readU32_at _ e _ W HD ltac:(lia)).
    rewrite (index_at _ _ _ _ _ _ _ W HC) by reflexivity.
    apply at_lv in HC. destruct HC as [HC _]. step (readU32_at _ e _ W HC ltac:(lia)). reflexivity. }
  rewrite (bind_Ret _ _ _ _ _ _ (RH (0 + 1))) in H. rewrite HL in H. change BLAKE2B_256_SIZE with 32 in H. rewrite step_set_off in H by lia.
  rewrite (bind_Ret _ _ _ _ _ _ (fee_read _ _ e _ W AP)) in H.
  bx H t o3 Q1. bx H s o4 Q2. apply ret_inv in H. destruct H as [-> _]. split; reflexivity.
Qed.

Lemma deploy_heading_any e h w y dh v i l o : wf e -> form_header h -> y <> [] -> at_ e 0 (enc_header h ++ dh ++ enc_fee w y) -> zlen dh = 32 ->
  dheader v = hdr h -> Deploy.payment v = fee_item w y -> expert_ok (expert e) (timefmt e) h -> name_fits (h_chain h) -> i < getNumItemsDeploy (expert e) v ->
  In (i, l) (deploy_head (expert e) (seen_header h) dh (fee_line y)) -> displays (getItemDeploy v i) e o l.
Proof.
  intros W G Pa A Ld Ev Ep EX NF Li Hi. rewrite !at_app, Ld in A. destruct A as (AH & AX & AP). rewrite Z.add_0_l in *.
  destruct (header_at_any e _ W G AH) as [HL HPK HDL HK HT1 HT2 HG HB HD HC HALL HEND]. rewrite zlen_lv in HEND.
  destruct G as [Ga Gk Gt Gl Gg Gb Gd]. change (S.len (h_key h)) with (zlen (h_key h)) in Gk.
  pose proof (zlen_nonneg (h_deps h)) as ND. pose proof (zlen_nonneg (h_chain h)) as NC. pose proof (at_bound _ _ _ W AP) as Bp. pose proof (wf_max e W).
  pose proof (zlen_nonneg (enc_fee w y)) as NP. pose proof (zlen_nonneg (enc_header h)) as NH.
  assert (NK : 32 <= zlen (h_key h) <= 33) by (rewrite Gk; unfold key_len; destruct Ga as [-> | ->]; cbn; lia).
  assert (Fee : forall j, getItemDeploy v i e o = bind (set_off (zlen (enc_header h) + 32)) (fun _ => getItem_SystemPayment (fee_item w y) 0) e o ->
     j = i -> displays (getItemDeploy v j) e o (fee_line y)).
  { intros j E ->. unfold displays. rewrite E, step_set_off by lia. pose proof (fee_shown w y e _ W AP) as FS. destruct y; [contradiction|exact FS]. }
  unfold deploy_head in Hi. apply in_app_or in Hi. destruct Hi as [Hi|Hi].
  - cbn [In] in Hi. unfold getItemDeploy, displays. rewrite step_ask, step_check by lia. rewrite Ev, HL.
    destruct Hi as [Hi|[Hi|[Hi|[]]]]; assert (i = fst (i, l)) as Ei by reflexivity; assert (l = snd (i, l)) as El by reflexivity; rewrite <- Hi in Ei, El; cbn [fst snd] in Ei, El; subst i l; clear Hi; ground_eqb.
    + rewrite step_set_off by lia. rewrite step_get_off.
      eexists _, _. split; [rewrite (bind_Ret _ _ _ _ _ _ (parser_printBytes_at dh e _ 32 _ W AX (eq_sym Ld) ltac:(lia))); reflexivity | split; reflexivity].
    + rewrite (index_at _ _ _ _ _ _ _ W HC) by reflexivity. rewrite step_get_off.
      apply at_lv in HC. destruct HC as [_ HC].
      replace (4 + (pubkeyLen (hdr h) + 56 + depsLen (hdr h))) with (pubkeyLen (hdr h) + 56 + depsLen (hdr h) + 4) by lia.
      cbn [lenChainName hdr]. apply name_text; auto.
    + rewrite (index_at _ _ _ _ _ _ _ W HK) by reflexivity. rewrite step_get_off.
      eexists _, _. split; [rewrite (bind_Ret _ _ _ _ _ _ (parser_printAddress_at _ _ e 0 (pubkeyLen (hdr h)) 0 W HK ltac:(rewrite HPK, zlen_cons; reflexivity) ltac:(lia))); reflexivity | split; reflexivity].
  - assert (FE : i = (if expert e then 8 else 4) -> getItemDeploy v i e o = bind (set_off (zlen (enc_header h) + 32)) (fun _ => getItem_SystemPayment (fee_item w y) 0) e o).
    { intros Ei. unfold getItemDeploy. rewrite step_ask, step_check by lia. rewrite Ev, HL, Ep, Ei. destruct (expert e); ground_eqb; reflexivity. }
    destruct (expert e) eqn:EE; cbn [In] in Hi.
    + destruct (EX eq_refl) as [ET [ts ES]].
      destruct Hi as [Hi|[Hi|[Hi|[Hi|[Hi|[]]]]]]; assert (i = fst (i, l)) as Ei by reflexivity; assert (l = snd (i, l)) as El by reflexivity; rewrite <- Hi in Ei, El; cbn [fst snd] in Ei, El; subst i l; clear Hi;
        [..|apply Fee; auto]; unfold getItemDeploy, displays; rewrite step_ask, EE, step_check by lia; rewrite Ev, HL; ground_eqb.
      * rewrite (index_at _ _ _ _ _ _ _ W HT1) by reflexivity. eexists _, _. split.
        -- unfold show_timestamp. step (readU64_at _ e _ W HT1 ltac:(lia)). rewrite step_ask, ES. reflexivity.
        -- split; [reflexivity|]. exists ts; auto.
      * rewrite (index_at _ _ _ _ _ _ _ W HT2) by reflexivity.
        pose proof (show_ttl_at (h_ttl h) e _ W HT2 Gl) as ST. replace (h_ttl h / 1000 <? 29 * 86400) with true in ST by lia.
        destruct ST as (s & ST & TT). eexists _, _. split; [exact ST|]. split; [reflexivity|]. exists s; auto.
      * rewrite (index_at _ _ _ _ _ _ _ W HG) by reflexivity. eexists _, _. split.
        -- step (readU64_at _ e _ W HG ltac:(lia)). reflexivity.
        -- split; [reflexivity|]. exists (dec (h_gas h)). split; [apply dec_decimal; lia | reflexivity].
      * rewrite (index_at _ _ _ _ _ _ _ W HD) by reflexivity. eexists _, _. split.
        -- step (readU32_at _ e _ W HD ltac:(lia)). reflexivity.
        -- split; [reflexivity|]. exists (dec (zlen (h_deps h))). split; [apply dec_decimal; lia | reflexivity].
    + destruct Hi as [Hi|[]]. assert (i = fst (i, l)) as Ei by reflexivity; assert (l = snd (i, l)) as El by reflexivity; rewrite <- Hi in Ei, El; cbn [fst snd] in Ei, El; subst i l. apply Fee; auto.
Qed.

(** Date and lifetime can be shown, and there is an amount, if the bytes are accepted. *)
Lemma deploy_clear_any pf x data h dh w y more v : hash32 (p_hash pf) -> bytes data -> zlen data < 65535 ->
  data = enc_header h ++ dh ++ enc_fee w y ++ more -> zlen dh = 32 -> form_header h ->
  tx_parse pf x (0 :: data) = Ret (TDeploy v) -> dheader v = hdr h -> Deploy.payment v = fee_item w y ->
  expert_ok x (p_time pf) h /\ y <> [] /\ name_fits (h_chain h).
Proof.
  intros Hh B L Ed Ld G T Ev Ep. destruct (shown_all pf x 40 data v Hh B L T) as [CT SA].
  set (e := ctx_of pf x false 40 data (zlen data)). assert (W : wf e) by (apply wf_ctx; auto; lia).
  assert (A : at_ e 0 (enc_header h ++ dh ++ enc_fee w y)) by (eapply at_start; cbn [mem e ctx_of]; rewrite Ed, <- !app_assoc; reflexivity).
  rewrite !at_app, Ld, Z.add_0_l in A. destruct A as (AH & AX & AP).
  destruct (header_at_any e _ W G AH) as [HL HPK HDL HK HT1 HT2 HG HB HD HC HALL HEND]. destruct G as [Ga Gk Gt Gl Gg Gb Gd].
  pose proof (at_bound _ _ _ W AP) as Bp. pose proof (zlen_nonneg (enc_header h)). pose proof (zlen_nonneg (enc_fee w y)). pose proof (wf_max e W).
  cbn [getNumItems] in *. split.
  - intros ->. destruct (proj1 (SA 4) ltac:(lia)) as (i4 & I4). destruct (proj1 (SA 5) ltac:(lia)) as (i5 & I5).
    rewrite getItem_run in I4, I5 by lia. fold e in I4, I5. cbn [getItem] in I4, I5.
    unfold getItemDeploy in I4, I5. rewrite step_ask in I4, I5. change (expert e) with true in I4, I5. rewrite step_check in I4, I5 by lia. rewrite Ev in I4, I5.
    cbn [Z.eqb Pos.eqb andb] in I4, I5. cbv iota in I4, I5.
    rewrite (index_at _ _ _ _ _ _ _ W HT1) in I4 by reflexivity. rewrite (index_at _ _ _ _ _ _ _ W HT2) in I5 by reflexivity. split.
    + pose proof (show_ttl_at (h_ttl h) e _ W HT2 Gl) as ST. destruct (h_ttl h / 1000 <? 29 * 86400) eqn:E; [lia|]. rewrite ST in I5. discriminate I5.
    + unfold show_timestamp in I4. rewrite (bind_Ret _ _ _ _ _ _ (readU64_at _ e _ W HT1 ltac:(lia))) in I4. rewrite step_ask in I4.
      change (timefmt e) with (p_time pf) in I4. destruct (p_time pf (h_time h / 1000)) as [s|]; [eauto|discriminate I4].
  - split.
  { intros ->. destruct (proj1 (SA (if x then 8 else 4)) ltac:(destruct x; lia)) as (i4 & I4). rewrite getItem_run in I4 by lia. fold e in I4. cbn [getItem] in I4.
    assert (FE : getItemDeploy v (if x then 8 else 4) e 0 = bind (set_off (zlen (enc_header h) + 32)) (fun _ => getItem_SystemPayment (fee_item w []) 0) e 0).
    { unfold getItemDeploy. rewrite step_ask. change (expert e) with x. rewrite step_check by (destruct x; lia). rewrite Ev, HL, Ep. destruct x; ground_eqb; reflexivity. }
    rewrite FE, step_set_off in I4 by lia. destruct (fee_shown w [] e _ W AP) as (c & o' & E). rewrite E in I4. discriminate I4. }
    destruct (proj1 (SA 2) ltac:(destruct x; lia)) as (i2 & I2). rewrite getItem_run in I2 by lia. fold e in I2. cbn [getItem] in I2.
    unfold getItemDeploy in I2. rewrite step_ask in I2. change (expert e) with x in I2. rewrite step_check in I2 by (destruct x; lia). rewrite Ev in I2.
    cbn [Z.eqb Pos.eqb andb] in I2. cbv iota in I2. rewrite (index_at _ _ _ _ _ _ _ W HC) in I2 by reflexivity. rewrite step_get_off in I2.
    apply at_lv in HC. destruct HC as [_ HC].
    replace (4 + (pubkeyLen (hdr h) + 56 + depsLen (hdr h))) with (pubkeyLen (hdr h) + 56 + depsLen (hdr h) + 4) in I2 by lia. cbn [lenChainName hdr] in I2.
    destruct (DISPLAY_STRING _ _ _ e _) as [r o'] eqn:D in I2. cbn [fst] in I2. subst r. eapply name_accepted; [exact W|exact HC|exact D].
Qed.
Lemma deploy_heading_seen pf x kl data h dh w y more v i l : hash32 (p_hash pf) -> bytes data -> zlen data < 65535 ->
  data = enc_header h ++ dh ++ enc_fee w y ++ more -> zlen dh = 32 -> form_header h ->
  tx_parse pf x (0 :: data) = Ret (TDeploy v) -> In (i, l) (deploy_head x (seen_header h) dh (fee_line y)) ->
  dh = p_hash pf (enc_header h) /\ i < getNumItems x (TDeploy v) /\
  exists it, tx_getItem pf x kl (0 :: data) (TDeploy v) i = Ret it /\ shows (p_hash pf) (p_time pf) l it.
Proof.
  intros Hh B L Ed Ld G T Hi. pose proof (accepted_deploy pf x data v Hh B L T) as AD. cbv zeta in AD.
  destruct AD as (W & o1 & o2 & t & o3 & its & o4 & hb & db & body & bh & RD & RP & _ & _ & _ & _ & Ct & _ & _ & _ & _ & _ & _ & _ & _ & S1 & S2 & H1 & _).
  set (e0 := ctx_of pf x false 40 data (zlen data)) in *.
  assert (AL : forall kl, at_ (ctx_of pf x false kl data (zlen data)) 0 (enc_header h ++ dh ++ enc_fee w y)).
  { intros kk. eapply at_start. cbn [mem ctx_of]. rewrite Ed, <- !app_assoc. reflexivity. }
  pose proof (AL 40) as A. fold e0 in A. rewrite !at_app, Ld, !Z.add_0_l in A. destruct A as (AH & AX & AP).
  destruct (fee_obj_any e0 h w y v o2 W G AH AP RD) as [Ev Ep].
  destruct (deploy_clear_any pf x data h dh w y more v Hh B L Ed Ld G T Ev Ep) as (EX & Pa & NF).
  pose proof (header_at_any e0 _ W G AH) as HA. pose proof (ReviewFacts.ha_len _ _ HA) as HL. rewrite Ev, HL in *.
  split.
  - unfold at_ in AH, AX. change (mem e0) with data in AH, AX. rewrite Ld in AX. congruence.
  - assert (Li : i < getNumItemsDeploy x v).
    { pose proof (num_items x v) as N. rewrite Ep in N. specialize (N eq_refl eq_refl Ct). unfold deploy_head in Hi. apply in_app_or in Hi.
      destruct x; cbn [In] in Hi; repeat match type of Hi with _ \/ _ => destruct Hi as [Hi|Hi] | _ => idtac end;
        repeat match goal with H : In _ _ \/ _ |- _ => destruct H end; intuition (try congruence);
        repeat match goal with H : (_, _) = (i, l) |- _ => injection H as <- _ end; lia. }
    split; [exact Li|]. set (e := ctx_of pf x false kl data (zlen data)).
    assert (We : wf e) by (apply wf_ctx; auto; lia).
    destruct (deploy_heading_any e h w y dh v i l 0 We G Pa (AL kl) Ld Ev Ep EX NF Li Hi) as (it & o' & E & Sh).
    exists it. pose proof (zlen_nonneg data). unfold tx_getItem. cbv iota. rewrite zlen_cons, u16_small by lia. replace (1 + zlen data - 1) with (zlen data) by lia.
    cbn [getItem]. fold e. rewrite E. split; [reflexivity|exact Sh].
Qed.

Lemma signed_deploy_any d s tr1 e st q pre tr2 v : device_ok d -> reach d s (tr1 ++ (e, st, Signed q pre) :: tr2) -> pending st = Some (RTx (TDeploy v)) ->
  exists data, tx_data (bufs st) = 0 :: data /\ forall h dh w y more, data = enc_header h ++ dh ++ enc_fee w y ++ more -> zlen dh = 32 -> form_header h ->
    pre = dh /\ dh = p_hash (plat d) (enc_header h) /\
    forall i l kl, In (i, l) (deploy_head (expert_mode st) (seen_header h) dh (fee_line y)) -> i < review_count st (RTx (TDeploy v)) /\
     exists it, review_item d st (RTx (TDeploy v)) kl i = Ret it /\ shows (p_hash (plat d)) (p_time (plat d)) l it.
Proof.
  intros D R P. destruct (deploy_data _ _ _ _ _ _ _ _ _ D R P) as (data & Ed & B & L & T & Sl). exists data. split; [exact Ed|].
  intros h dh w y more E Ld G. assert (Hh : hash32 (p_hash (plat d))) by apply D.
  pose proof (fun i l kl => deploy_heading_seen (plat d) (expert_mode st) kl data h dh w y more v i l Hh B L E Ld G T) as SH.
  destruct (SH 0 _ 40 (or_introl eq_refl)) as (E1 & _ & it & I & Sh). split.
  - rewrite (hash_item _ _ _ _ _ pre Hh B L T Sl) in I. injection I as <-. destruct Sh as [_ Sh]. cbn in Sh. injection Sh as Sh.
    eapply cep57_inj; [| |exact Sh]; [eapply slice_bytes; eauto|rewrite E1; apply Hh].
  - split; [exact E1|]. intros i l kl Hi. destruct (SH i l kl Hi) as (_ & Li & it' & I' & Sh'). split; [exact Li|]. cbn [review_item]. rewrite Ed. eauto.
Qed.
