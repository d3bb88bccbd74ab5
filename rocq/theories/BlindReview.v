(** The review of a deploy from what is known of its session. *)
From Verif Require Import Base Zxlib Crypto Utils RuntimeArg Deploy DeployUI TxV1 TxV1UI Parser BaseFacts Spec SpecText SpecDeploy SpecRaw SpecBlind Exec ArgsFacts ReaderFacts TextFacts Shows DeployArgs SessionFacts DelegationFacts StoredFacts ModuleFacts ReviewFacts.
Import S ST SD.

(** As [session_ok] (SessionFacts), with the text [tt] shown as type. *)
Record sess_ok (e : env) (o : Z) (s : session) (tt_ : string) (lines : list line) (r : ditem * Z) : Prop := {
  sk_parse : parseDeployItem_session (stype s) e (o + 1) = (Ret r, o + zlen (enc_session s));
  sk_total : totalLength (fst r) = zlen (enc_session s);
  sk_fixed : 0 <= UI_fixed_items (fst r);
  sk_runtime : 0 <= UI_runtime_items (fst r);
  sk_sum : UI_fixed_items (fst r) + UI_runtime_items (fst r) = zlen lines;
  sk_few : zlen lines <= 8;
  sk_type : forall h p, dspecial p = SystemPayment -> deploy_type_text (mkDeploy h p (fst r) (snd r)) = tt_;
  sk_items : forall i l, nth_error lines i = Some l ->
              displays (session_item (fst r) (snd r) (Z.of_nat i)) e o l }.

(** The same, with only the first [k] lines shown. *)
Record sess_part (k : nat) (e : env) (o : Z) (s : session) (tt_ : string) (lines : list line) (r : ditem * Z) : Prop := {
  sp_parse : parseDeployItem_session (stype s) e (o + 1) = (Ret r, o + zlen (enc_session s));
  sp_total : totalLength (fst r) = zlen (enc_session s);
  sp_fixed : 0 <= UI_fixed_items (fst r);
  sp_runtime : 0 <= UI_runtime_items (fst r);
  sp_sum : UI_fixed_items (fst r) + UI_runtime_items (fst r) = zlen lines;
  sp_few : zlen lines <= 8;
  sp_type : forall h p, dspecial p = SystemPayment -> deploy_type_text (mkDeploy h p (fst r) (snd r)) = tt_;
  sp_items : forall i l, (i < k)%nat -> nth_error lines i = Some l ->
              displays (session_item (fst r) (snd r) (Z.of_nat i)) e o l }.
Lemma ok_part e o s tt_ lines r : sess_ok e o s tt_ lines r -> sess_part (List.length lines) e o s tt_ lines r.
Proof. intros [A B C D E F G H]. constructor; auto. Qed.

(** As [core] and [deploy_at] (ReviewFacts), with any session. *)
Record frame (H : list Z -> list Z) (d : SD.deploy) : Prop := {
  fr_header : good_header (d_header d);
  fr_hash : d_hash d = H (enc_header (d_header d));
  fr_hlen : S.len (d_hash d) = 32;
  fr_body : h_bodyhash (d_header d) = H (enc_body d);
  fr_pay : S.len (p_amount (d_payment d)) <= 64 }.
Record frame_at (e : env) (d : SD.deploy) (n : Z) (r : list Z) : Prop := {
  fa_wf : wf e; fa_nw : wasm e = false; fa_good : frame (hash e) d; fa_fol : follows (expert e) d n r;
  fa_at : at_ e 0 (enc_signed d ++ r) }.
Lemma frame_pieces e d n r : frame_at e d n r ->
  at_ e 0 (enc_header (d_header d)) /\ at_ e (hlen d) (d_hash d) /\
  at_ e (hlen d + 32) (enc_body d) /\
  at_ e (hlen d + 32) (enc_payment (d_payment d)) /\
  at_ e (hlen d + 32 + plen d) (enc_session (d_session d) ++ r).
Proof.
  intros [W _ G _ A]. unfold enc_signed in A. rewrite <- !app_assoc, !at_app in A. destruct A as (A1 & A2 & A3 & A4).
  pose proof (fr_hlen _ _ G) as HL. change (S.len (d_hash d)) with (zlen (d_hash d)) in HL. rewrite HL in *.
  fold (hlen d) in *. rewrite Z.add_0_l in *. split; auto. split; auto. split; auto.
  pose proof A3 as A3'. unfold enc_body in A3'. apply at_app in A3'. destruct A3' as [A6 A7]. split; auto.
  apply at_app. split; [exact A7|].
  unfold enc_body in A4. rewrite zlen_app in A4. fold (plen d) (slen d) in A4.
  fold (slen d). replace (hlen d + 32 + plen d + slen d) with (hlen d + 32 + (plen d + slen d)) by lia. auto.
Qed.
Lemma frame_bound e d n r : frame_at e d n r ->
  0 <= hlen d /\ 0 <= plen d /\ 0 <= slen d /\ hlen d + 32 + plen d + slen d <= blen e < 65536.
Proof.
  intros D. pose proof (frame_pieces _ _ _ _ D) as (_ & _ & _ & _ & A). pose proof (fa_wf _ _ _ _ D) as W.
  apply at_app in A. destruct A as [A _]. apply at_bound in A; auto. fold (slen d) in A.
  pose proof (wf_max e W). unfold hlen, plen, slen in *.
  pose proof (zlen_nonneg (enc_header (d_header d))). pose proof (zlen_nonneg (enc_payment (d_payment d))).
  pose proof (zlen_nonneg (enc_session (d_session d))). lia.
Qed.
Lemma frame_env pf x kl d n r : (forall y, zlen (p_hash pf y) = 32 /\ bytes (p_hash pf y)) -> frame (p_hash pf) d -> follows x d n r ->
  bytes (enc_signed d ++ r) -> zlen (enc_signed d ++ r) < 65535 ->
  frame_at (ctx_of pf x false kl (enc_signed d ++ r) (zlen (enc_signed d ++ r))) d n r.
Proof.
  intros Hh G F B L. constructor.
  - constructor; cbn [mem blen hash ctx_of]; [reflexivity | lia | exact B | intros y; apply Hh | intros y; apply Hh].
  - reflexivity.
  - exact G.
  - exact F.
  - apply slice_Some. exists [], []. rewrite app_nil_r. split; [reflexivity | split; reflexivity].
Qed.

Lemma any_parse k e d n tl ty lines r : frame_at e d n tl ->
  sess_part k e (hlen d + 32 + plen d) (d_session d) ty lines r ->
    parser_read_deploy e 0 = (Ret (mkDeploy (hdr (d_header d)) (pay_item (d_payment d)) (fst r) (snd r)),
                              hlen d + 32 + plen d + slen d).
Proof.
  intros D SO.
  pose proof (frame_pieces _ _ _ _ D) as (AH & AX & AB & AP & AS). pose proof (frame_bound _ _ _ _ D) as BB.
  pose proof (fa_wf _ _ _ _ D) as W. pose proof (fa_good _ _ _ _ D) as G.
  pose proof (header_at_ok e _ W (fr_header _ _ G) AH) as HA. destruct HA as [HL HPK HDL HK HT1 HT2 HG HB HD HC HALL HEND].
  fold (hlen d) in HL.
  unfold parser_read_deploy. rewrite step_ask, step_check by lia.
  assert (A0 : at_ e 0 [h_alg (d_header d)]) by (apply (proj1 (at_app e 0 [h_alg (d_header d)] _)) in HK; tauto).
  step (readU8_at _ e _ W A0). pose proof (gh_alg _ (fr_header _ _ G)) as GA. rewrite step_check by lia.
  pose proof (zlen_nonneg (h_deps (d_header d))). pose proof (zlen_nonneg (h_chain (d_header d))). pose proof (zlen_nonneg (h_key (d_header d))).
  assert (RH : forall o, read_header_counts (h_alg (d_header d)) e o
               = (Ret (hdr (d_header d)), pubkeyLen (hdr (d_header d)) + 56 + depsLen (hdr (d_header d)) + 4)).
  { intros o. unfold read_header_counts. rewrite (index_at _ _ _ _ _ _ _ W HD) by reflexivity.
    fold (hlen d) in HEND. rewrite zlen_lv in HEND.
    step (readU32_at _ e _ W HD ltac:(lia)).
    rewrite (index_at _ _ _ _ _ _ _ W HC) by reflexivity.
    apply at_lv in HC. destruct HC as [HC _].
    step (readU32_at _ e _ W HC ltac:(lia)). reflexivity. }
  step (RH (0 + 1)). rewrite HL. change BLAKE2B_256_SIZE with 32. rewrite step_set_off by lia.
  step (payment_at _ e _ W AP). fold (plen d).
  destruct (enc_session_hd (d_session d)) as [rs ES].
  assert (AT : at_ e (hlen d + 32 + plen d) [stype (d_session d)]).
  { apply at_app in AS. destruct AS as [AS _]. rewrite ES in AS. apply (proj1 (at_app e _ [stype (d_session d)] rs)) in AS. tauto. }
  unfold parseDeployType at 1. rewrite bind_assoc. step (readU8_at _ e _ W AT).
  rewrite bind_assoc, step_check by (destruct (d_session d) as [| [] |]; reflexivity). rewrite step_ret.
  step (sp_parse _ _ _ _ _ _ _ SO). reflexivity.
Qed.

Lemma any_valid k e d n tl r ty lines o : frame_at e d n tl -> sess_part k e (hlen d + 32 + plen d) (d_session d) ty lines r ->
  exists o', validateTxDeploy (mkDeploy (hdr (d_header d)) (pay_item (d_payment d)) (fst r) (snd r)) e o = (Ret tt, o').
Proof.
  intros D SO.
  pose proof (frame_pieces _ _ _ _ D) as (AH & AX & AB & AP & AS). pose proof (frame_bound _ _ _ _ D) as BB.
  pose proof (fa_wf _ _ _ _ D) as W. pose proof (fa_good _ _ _ _ D) as G.
  pose proof (header_at_ok e _ W (fr_header _ _ G) AH) as HA. destruct HA as [HL HPK HDL HK HT1 HT2 HG HB HD HC HALL HEND].
  fold (hlen d) in HL. pose proof (fr_hlen _ _ G) as GH. change (S.len (d_hash d)) with (zlen (d_hash d)) in GH.
  eexists. unfold validateTxDeploy. cbn [dheader Deploy.payment Deploy.session]. rewrite HL.
  rewrite step_ask. rewrite (step_at _ _ _ _ _ _ HALL) by reflexivity. rewrite (step_at _ _ _ _ _ _ AX) by (symmetry; exact GH).
  rewrite step_check by (apply list_eqb_eq; symmetry; apply (fr_hash _ _ G)).
  rewrite u16_small by lia. cbn [totalLength pay_item]. rewrite (sp_total _ _ _ _ _ _ _ SO). fold (plen d) (slen d).
  rewrite u32_small by lia. rewrite (step_at _ _ _ _ _ _ AB) by (unfold enc_body; rewrite zlen_app; reflexivity).
  rewrite (index_at _ _ _ _ _ _ _ W HB) by reflexivity.
  rewrite step_get_off. pose proof (gh_bodyhash _ (fr_header _ _ G)) as GB. change (S.len (h_bodyhash (d_header d))) with (zlen (h_bodyhash (d_header d))) in GB.
  rewrite (step_at _ _ _ _ _ _ HB) by (symmetry; exact GB).
  rewrite (proj2 (list_eqb_eq _ _)) by (symmetry; apply (fr_body _ _ G)). reflexivity.
Qed.

Lemma any_count k e d n r ty lines :
  sess_part k e (hlen d + 32 + plen d) (d_session d) ty lines r ->
  getNumItemsDeploy (expert e) (deploy_obj d r) = zlen (SB.entitled (expert e) d ty n lines).
Proof.
  intros SO. unfold SB.entitled.
  unfold getNumItemsDeploy, deploy_obj. cbn [Deploy.payment Deploy.session UI_fixed_items UI_runtime_items pay_item].
  pose proof (sp_sum _ _ _ _ _ _ _ SO). pose proof (sp_few _ _ _ _ _ _ _ SO). pose proof (zlen_nonneg lines).
  destruct (expert e); rewrite u8_small by lia; unfold zlen in *; rewrite !app_length; cbn [List.length]; lia.
Qed.

Lemma any_items k e d n tl r ty lines i l o :
  frame_at e d n tl -> sess_part k e (hlen d + 32 + plen d) (d_session d) ty lines r ->
  expert_ok (expert e) (timefmt e) (d_header d) ->
  (i < (if expert e then 9 else 5) + k \/ (if expert e then 9 else 5) + List.length lines <= i)%nat ->
  nth_error (SB.entitled (expert e) d ty n lines) i = Some l ->
  displays (getItemDeploy (deploy_obj d r) (Z.of_nat i)) e o l.
Proof.
  intros D SO EX IK Hi.
  pose proof (any_count _ _ _ n _ _ _ SO) as CNT. set (all_lines := SB.entitled (expert e) d ty n lines) in *.
  pose proof (frame_pieces _ _ _ _ D) as (AH & AX & AB & AP & AS). pose proof (frame_bound _ _ _ _ D) as BB.
  pose proof (fa_wf _ _ _ _ D) as W. pose proof (fa_good _ _ _ _ D) as G.
  pose proof (header_at_ok e _ W (fr_header _ _ G) AH) as HA. destruct HA as [HL HPK HDL HK HT1 HT2 HG HB HD HC HALL HEND].
  fold (hlen d) in HL, HEND. pose proof (fr_hlen _ _ G) as GH. change (S.len (d_hash d)) with (zlen (d_hash d)) in GH.
  pose proof (sp_sum _ _ _ _ _ _ _ SO) as SS. pose proof (sp_few _ _ _ _ _ _ _ SO) as SF. pose proof (zlen_nonneg lines) as SN.
  pose proof (sp_fixed _ _ _ _ _ _ _ SO) as SX. pose proof (sp_runtime _ _ _ _ _ _ _ SO) as SR.
  pose proof (nth_cases _ _ _ Hi) as Li.
  pose proof (fr_header _ _ G) as [Ga Gk Gt Gl Gg Gb Gd Gc].
  change (S.len (h_key (d_header d))) with (zlen (h_key (d_header d))) in Gk.
  pose proof (zlen_nonneg (h_deps (d_header d))) as ND. pose proof (zlen_nonneg (h_chain (d_header d))) as NC.
  assert (NK : 32 <= zlen (h_key (d_header d)) <= 33) by (rewrite Gk; unfold key_len; destruct Ga as [-> | ->]; cbn; lia).
  rewrite zlen_lv in HEND.
  (* the four common lines *)
  assert (L0 : nth_error [ln "Txn hash" (Hex (d_hash d)); ln "Type" (Words (text ty));
       ln "Chain ID" (Text (h_chain (d_header d))); ln "Account" (KeyText (h_alg (d_header d)) (h_key (d_header d)))] i = Some l ->
       displays (getItemDeploy (deploy_obj d r) (Z.of_nat i)) e o l).
  { intros Hn. unfold getItemDeploy, displays. rewrite step_ask, CNT, step_check by (unfold zlen; lia).
    unfold deploy_obj at 1. cbn [dheader]. rewrite HL.
    nth_split Hn; ground_eqb.
    - rewrite step_set_off by lia. rewrite step_get_off.
      eexists _, _. split; [rewrite (bind_Ret _ _ _ _ _ _ (parser_printBytes_at (d_hash d) e (hlen d) 32 (hlen d) W AX (eq_sym GH) ltac:(lia))); reflexivity | split; reflexivity].
    - eexists _, _. split; [reflexivity|]. split; [reflexivity|].
      unfold deploy_obj. cbn [ival snd ln renders]. rewrite (sp_type _ _ _ _ _ _ _ SO) by reflexivity. reflexivity.
    - cbn [dheader deploy_obj]. rewrite (index_at _ _ _ _ _ _ _ W HC) by reflexivity. rewrite step_get_off.
      apply at_lv in HC. destruct HC as [_ HC].
      replace (4 + (pubkeyLen (hdr (d_header d)) + 56 + depsLen (hdr (d_header d))))
        with (pubkeyLen (hdr (d_header d)) + 56 + depsLen (hdr (d_header d)) + 4) by lia.
      cbn [lenChainName hdr]. apply show_text_at; auto.
    - cbn [dheader deploy_obj]. rewrite (index_at _ _ _ _ _ _ _ W HK) by reflexivity. rewrite step_get_off.
      eexists _, _. split; [rewrite (bind_Ret _ _ _ _ _ _ (parser_printAddress_at _ _ e 0 (pubkeyLen (hdr (d_header d))) 0 W HK ltac:(rewrite HPK, zlen_cons; reflexivity) ltac:(lia))); reflexivity | split; reflexivity]. }
  (* fee, session and approvals, counted from [k] *)
  assert (L2 : forall k0, (k0 = if expert e then 8 else 4)%nat -> (k0 <= i)%nat ->
       nth_error ([ln "Fee" (Motes (value (p_amount (d_payment d))))] ++ lines
        ++ (if expert e then [ln "Approvals #" (Number n)] else [])) (i - k0) = Some l ->
       displays (getItemDeploy (deploy_obj d r) (Z.of_nat i)) e o l).
  { intros k0 Hk Lk Hn. unfold getItemDeploy, displays. rewrite step_ask, CNT, step_check by (unfold zlen; lia).
    assert (CNT' : zlen all_lines = if expert e then 10 + zlen lines else 5 + zlen lines).
    { rewrite <- CNT. unfold getNumItemsDeploy, deploy_obj. cbn [Deploy.payment Deploy.session UI_fixed_items UI_runtime_items pay_item].
      destruct (expert e); rewrite u8_small by lia; lia. }
    assert (Li' : Z.of_nat i < zlen all_lines) by (unfold zlen; lia).
    assert (K4 : 4 <= Z.of_nat i) by (destruct (expert e); lia).
    assert (K8 : expert e = true -> 8 <= Z.of_nat i) by (intros X; rewrite X in Hk; lia).
    replace (Z.of_nat i =? 0) with false by lia. replace (Z.of_nat i =? 1) with false by lia.
    replace (Z.of_nat i =? 2) with false by lia. replace (Z.of_nat i =? 3) with false by lia.
    assert (KX : forall c, c < 8 -> expert e && (Z.of_nat i =? c) = false).
    { intros c Hc. destruct (expert e); [cbn; specialize (K8 eq_refl); lia | reflexivity]. }
    rewrite !KX by lia.
    assert (KN : u8 (Z.of_nat i - (if expert e then 8 else 4)) = Z.of_nat (i - k0)).
    { destruct (expert e); subst k0; rewrite u8_small by lia; lia. }
    rewrite KN. unfold deploy_obj at 1. cbn [dheader]. rewrite HL. rewrite step_set_off by lia.
    cbn [deploy_obj Deploy.payment Deploy.session UI_fixed_items UI_runtime_items pay_item dspecial totalLength entry_point_offset].
    change (u16 (0 + 1)) with 1. rewrite SS, (sp_total _ _ _ _ _ _ _ SO). fold (plen d) (slen d).
    rewrite (u16_small (zlen lines)) by lia.
    apply nth_app2 in Hn. destruct Hn as [[Lj Hn]|[Lj Hn]].
    - cbn in Lj. assert (i - k0 = 0)%nat as E by lia. rewrite E in *. cbn in Hn. injection Hn as <-.
      change (Z.of_nat 0 <? 1) with true. cbv iota. change (SystemPayment =? SystemPayment) with true. cbv iota.
      apply fee_at; auto. pose proof (fr_pay _ _ G) as GP. exact GP.
    - cbn [List.length] in Lj, Hn. replace (Z.of_nat (i - k0) <? 1) with false by lia.
      assert (KM : u8 (Z.of_nat (i - k0) - 1) = Z.of_nat (i - k0 - 1)).
      { rewrite u8_small; [lia|]. destruct (expert e); lia. }
      rewrite KM. rewrite step_advance by lia.
      apply nth_app2 in Hn. destruct Hn as [[Lm Hn]|[Lm Hn]].
      + replace (Z.of_nat (i - k0 - 1) <? zlen lines) with true by (unfold zlen; lia).
        refine (sp_items _ _ _ _ _ _ _ SO _ _ _ Hn). clear - IK Hk Lk Lj Lm. destruct (expert e); lia.
      + replace (Z.of_nat (i - k0 - 1) <? zlen lines) with false by (unfold zlen; lia).
        rewrite step_advance by lia.
        destruct (expert e) eqn:EE; [|rewrite nth_error_nil in Hn; discriminate Hn].
        assert (i - k0 - 1 - List.length lines = 0)%nat as E.
        { pose proof (nth_cases _ _ _ Hn) as Lz. cbn in Lz. lia. }
        rewrite E in Hn. cbn in Hn. injection Hn as <-.
        replace (Z.of_nat i =? zlen all_lines - 1) with true by (unfold zlen in CNT' |- *; lia). cbn [andb].
        apply at_app in AS. destruct AS as [AS AT]. fold (slen d) in AT. destruct (fo_expert _ _ _ _ (fa_fol _ _ _ _ D) EE) as (post & Et). rewrite Et in AT. apply at_app in AT. destruct AT as [AT _].
        pose proof (fo_n _ _ _ _ (fa_fol _ _ _ _ D)) as N.
        eexists _, _. split.
        * step (readU32_at _ e _ W AT ltac:(lia)). reflexivity.
        * split; [reflexivity|]. cbn [renders snd ln ival]. exists (dec n). split; [apply dec_decimal; lia | reflexivity]. }
  unfold all_lines, SB.entitled in Hi.
  change (S.len (h_deps (d_header d))) with (zlen (h_deps (d_header d))) in Hi.
  apply nth_app2 in Hi. destruct Hi as [[L4 Hi]|[L4 Hi]]; [apply L0; exact Hi|].
  cbn [List.length] in L4, Hi.
  destruct (expert e) eqn:EE.
  - apply nth_app2 in Hi. destruct Hi as [[L8 Hi]|[L8 Hi]].
    + clear IK. destruct (EX eq_refl) as [ET [ts ES]].
      unfold getItemDeploy, displays. rewrite step_ask, EE, CNT, step_check by (unfold zlen; lia).
      remember (i - 4)%nat as j eqn:Ej. assert (i = 4 + j)%nat as -> by lia. clear Ej.
      nth_split Hi; try (rewrite nth_error_nil in Hi; discriminate Hi); cbn [Nat.add]; ground_eqb; cbn [dheader deploy_obj].
      * rewrite (index_at _ _ _ _ _ _ _ W HT1) by reflexivity. eexists _, _. split.
        -- unfold show_timestamp. step (readU64_at _ e _ W HT1 ltac:(lia)). rewrite step_ask, ES. reflexivity.
        -- split; [reflexivity|]. exists ts; auto.
      * rewrite (index_at _ _ _ _ _ _ _ W HT2) by reflexivity.
        pose proof (show_ttl_at (h_ttl (d_header d)) e _ W HT2 Gl) as ST. replace (h_ttl (d_header d) / 1000 <? 29 * 86400) with true in ST by lia.
        destruct ST as (s & ST & TT). eexists _, _. split; [exact ST|]. split; [reflexivity|]. exists s; auto.
      * rewrite (index_at _ _ _ _ _ _ _ W HG) by reflexivity. eexists _, _. split.
        -- step (readU64_at _ e _ W HG ltac:(lia)). reflexivity.
        -- split; [reflexivity|]. exists (dec (h_gas (d_header d))). split; [apply dec_decimal; lia | reflexivity].
      * rewrite (index_at _ _ _ _ _ _ _ W HD) by reflexivity. eexists _, _. split.
        -- step (readU32_at _ e _ W HD ltac:(lia)). reflexivity.
        -- split; [reflexivity|]. exists (dec (zlen (h_deps (d_header d)))). split; [apply dec_decimal; lia | reflexivity].
    + cbn [List.length] in L8, Hi. apply (L2 8%nat); auto; [lia|]. replace (i - 8)%nat with (i - 4 - 4)%nat by lia. exact Hi.
  - cbn [app] in Hi. apply (L2 4%nat); auto.
Qed.

Lemma any_review pf x d n r ty sl rr :
  (forall y, zlen (p_hash pf y) = 32 /\ bytes (p_hash pf y)) ->
  frame (p_hash pf) d -> follows x d n r -> bytes (enc_signed d ++ r) -> zlen (enc_signed d ++ r) < 65535 ->
  (forall e, frame_at e d n r -> expert e = x -> hash e = p_hash pf -> sess_ok e (hlen d + 32 + plen d) (d_session d) ty sl rr) ->
  expert_ok x (p_time pf) (d_header d) ->
  reviews pf x (0 :: enc_signed d ++ r) (SB.entitled x d ty n sl).
Proof.
  intros Hh G F B L SS EX. set (data := enc_signed d ++ r) in *. pose proof (zlen_nonneg data).
  assert (ZT : u16 (zlen (0 :: data)) = 1 + zlen data).
  { rewrite zlen_cons, u16_small; lia. }
  pose proof (frame_env pf x 40 d n r Hh G F B L) as D0. fold data in D0. set (e0 := ctx_of pf x false 40 data (zlen data)) in *.
  pose proof (SS e0 D0 eq_refl eq_refl) as SO. pose proof (any_parse _ e0 d n r ty sl rr D0 (ok_part _ _ _ _ _ _ SO)) as PR.
  assert (NE : 0 < zlen data).
  { pose proof (frame_bound _ _ _ _ D0) as BB. change (blen e0) with (zlen data) in BB. lia. }
  exists (TDeploy (deploy_obj d rr)).
  assert (CN : getNumItems x (TDeploy (deploy_obj d rr)) = zlen (SB.entitled x d ty n sl)) by (exact (any_count _ e0 d n rr ty sl (ok_part _ _ _ _ _ _ SO))).
  split; [|split; [exact CN|]].
  - unfold tx_parse. rewrite ZT. replace (1 + zlen data =? 0) with false by lia.
    replace (1 + zlen data =? 1) with false by lia.
    replace (1 + zlen data - 1) with (zlen data) by lia. fold e0.
    unfold parse_content. change (0 =? content_Deploy) with true. cbv iota.
    rewrite bind_assoc. step PR. fold (deploy_obj d rr). rewrite step_ret. unfold parser_validate. rewrite bind_assoc.
    destruct (any_valid _ e0 d n r rr ty sl (hlen d + 32 + plen d + slen d) D0 (ok_part _ _ _ _ _ _ SO)) as (o' & V).
    fold (deploy_obj d rr) in V. step V. rewrite bind_assoc, step_ask.
    change (expert e0) with x. rewrite CN.
    destruct (items_ok e0 (TDeploy (deploy_obj d rr)) (SB.entitled x d ty n sl)) with (n := Z.to_nat (zlen (SB.entitled x d ty n sl))) (idx := 0%nat) (o := o') as (its & o2 & HI).
    + intros i l o Hi. exact (any_items _ e0 d n r rr ty sl i l o D0 (ok_part _ _ _ _ _ _ SO) EX ltac:(lia) Hi).
    + unfold zlen. lia.
    + change (Z.of_nat 0) with 0 in HI. step HI. reflexivity.
  - intros i l Hi kl. unfold tx_getItem. cbv iota. rewrite ZT. replace (1 + zlen data - 1) with (zlen data) by lia.
    pose proof (frame_env pf x kl d n r Hh G F B L) as D1. fold data in D1. set (e1 := ctx_of pf x false kl data (zlen data)) in *.
    pose proof (SS e1 D1 eq_refl eq_refl) as SO1.
    destruct (any_items _ e1 d n r rr ty sl i l 0 D1 (ok_part _ _ _ _ _ _ SO1) EX ltac:(lia) Hi) as (it & o' & E & SH).
    exists it. cbn [getItem]. rewrite E. split; [reflexivity | exact SH].
Qed.
