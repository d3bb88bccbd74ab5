(** A complete session for a deploy of module code that does not fit. *)
From Verif Require Import Base Zxlib Crypto Utils RuntimeArg Deploy DeployUI TxV1 TxV1UI Parser BaseFacts Spec SpecText SpecDeploy SpecTx SpecLayout Exec ArgsFacts ReaderFacts TextFacts RangeFacts BindFacts OklFacts BindCases SafeFacts TxInv Demo Shows ReviewFacts TxShow TxReview SpecApp SpecSess App AppFacts AppHist AppClaims AppSign TxAccept TxSign MoreSign SessFacts SessTx.
Import S SD.

Lemma counts_at e h : wf e -> good_header h -> at_ e 0 (enc_header h) -> forall o,
  read_header_counts (h_alg h) e o = (Ret (hdr h), pubkeyLen (hdr h) + 56 + depsLen (hdr h) + 4).
Proof.
  intros W G A o. pose proof (at_bound _ _ _ W A) as AB. pose proof (header_at_ok e _ W G A) as [HL HPK HDL HK HT1 HT2 HG HB HD HC HALL HEND].
  pose proof (zlen_nonneg (h_deps h)). pose proof (zlen_nonneg (h_chain h)). pose proof (zlen_nonneg (h_key h)).
  unfold read_header_counts. rewrite (index_at _ _ _ _ _ _ _ W HD) by reflexivity.
  rewrite zlen_lv in HEND. step (readU32_at _ e _ W HD ltac:(lia)).
  rewrite (index_at _ _ _ _ _ _ _ W HC) by reflexivity. apply at_lv in HC. destruct HC as [HC _].
  step (readU32_at _ e _ W HC ltac:(lia)). reflexivity.
Qed.

(** The beginning of the deploy, cut inside the code, is accepted. *)
Lemma cut_parses pf x w dp code r : hash32 (p_hash pf) -> good_header (d_header dp) -> zlen (d_hash dp) = 32 ->
  zlen code < 2 ^ 32 - 65536 ->
  bytes (SS.before_code dp code ++ r) -> zlen (SS.before_code dp code ++ r) < 65536 -> zlen r < zlen code ->
  parser_parse_wasm pf x w (SS.before_code dp code ++ r) = Ret (hdr (d_header dp)).
Proof.
  intros Hh GH Lh Lc B L Lr. set (m := SS.before_code dp code ++ r) in *. unfold parser_parse_wasm.
  set (h := d_header dp) in *. set (p := d_payment dp) in *.
  assert (Lm : zlen m = zlen (enc_header h) + 32 + zlen (enc_payment p) + 5 + zlen r).
  { unfold m, SS.before_code. fold h p. repeat rewrite ?zlen_app, ?zlen_cons, ?le_length. rewrite Lh. lia. }
  pose proof (zlen_nonneg (enc_header h)). pose proof (zlen_nonneg (enc_payment p)). pose proof (zlen_nonneg r).
  cbv zeta. rewrite u16_small by lia. replace (zlen m =? 0) with false by lia.
  set (e := ctx_of pf x w 40 m (zlen m)). pose proof (wf_ctx pf x w 40 m Hh B L) as W. fold e in W.
  assert (A : at_ e 0 m).
  { unfold at_. change (mem e) with m. unfold slice. replace (_ && _) with true by lia. rewrite skipn_O. f_equal. apply firstn_all2. unfold zlen. lia. }
  unfold m, SS.before_code in A. fold h p in A. rewrite <- !app_assoc in A.
  apply at_app in A. destruct A as [AH A]. apply at_app in A. destruct A as [AX A]. apply at_app in A. destruct A as [AP A].
  rewrite Lh in AP, A. cbn [Datatypes.app] in A. apply at_cons in A. destruct A as [AT A]. apply at_app in A. destruct A as [AL A].
  replace (0 + zlen (enc_header h)) with (zlen (enc_header h)) in * by lia.
  pose proof (header_at_ok e h W GH AH) as [HL HPK HDL HK HT1 HT2 HG HB HD HC HALL HEND].
  pose proof (zlen_nonneg (h_deps h)). pose proof (zlen_nonneg (h_chain h)). pose proof (zlen_nonneg (h_key h)). pose proof (gh_alg _ GH) as GA.
  unfold readHeader_wasm. apply at_cons in HK. destruct HK as [HK _]. rewrite (step_mem_at _ _ _ _ _ HK).
  rewrite step_check by lia. step (counts_at e h W GH AH 0). rewrite step_get_off, step_ask.
  rewrite zlen_lv in HEND. change (blen e) with (zlen m).
  rewrite step_check by (change BLAKE2B_256_SIZE with 32; lia). rewrite HL. change BLAKE2B_256_SIZE with 32. rewrite step_set_off by lia.
  step (payment_at p e _ W AP).
  assert (AT' : at_ e (zlen (enc_header h) + 32 + zlen (enc_payment p)) [0]) by (apply at_cons; split; [exact AT | unfold at_, slice; cbn [mem e]; replace (_ && _) with true; [reflexivity| change (zlen []) with 0; change (mem e) with m; lia]]).
  unfold parseDeployType. rewrite bind_assoc. step (readU8_at 0 e _ W AT'). rewrite bind_assoc, step_check by reflexivity. rewrite step_ret.
  assert (F : exists o', parseDeployItem_session 0 e (zlen (enc_header h) + 32 + zlen (enc_payment p) + 1) = (Fail parser_unexpected_buffer_end, o')).
  { eexists. unfold parseDeployItem_session. cbv zeta. change (0 =? ModuleBytes) with true. cbv iota. unfold parseModuleBytes_session, off32.
    rewrite !bind_assoc. rewrite step_get_off, bind_assoc, step_ask, step_ret. unfold parse_item. rewrite !bind_assoc.
    step (readU32_at (zlen code) e _ W AL ltac:(lia)). rewrite !bind_assoc, step_get_off, !bind_assoc, step_ask, !bind_assoc.
    change (blen e) with (zlen m). rewrite u32_small by lia. unfold check at 1. replace (_ <=? _) with false by lia. reflexivity. }
  destruct F as (o' & F). rewrite (step_try_fail _ _ _ _ _ _ F). reflexivity.
Qed.

Lemma prefix_cut {A} (a b c d : list A) : a ++ b = c ++ d -> (List.length c <= List.length a)%nat -> exists r, a = c ++ r /\ d = r ++ b.
Proof.
  intros E L. exists (skipn (List.length c) a). 
  assert (F : firstn (List.length c) a = c).
  { apply (f_equal (firstn (List.length c))) in E. rewrite firstn_app, (firstn_app (List.length c) c), Nat.sub_diag, firstn_all in E.
    replace (List.length c - List.length a)%nat with 0%nat in E by lia. rewrite !firstn_O, !app_nil_r in E. exact E. }
  split; [rewrite <- F at 1; symmetry; apply firstn_skipn|].
  rewrite <- F in E at 1. rewrite <- (firstn_skipn (List.length c) a) in E at 1. rewrite F, <- app_assoc in E. apply app_inv_head in E. auto.
Qed.

(** While the chunks arrive: everything sent so far is in the buffer, or the
    buffer was found full and holds the beginning of the data. *)
Record opening (d : device) (path : list Z) (x : bool) (s : app) : Prop := {
  op_buf : buf_ok d (bufs s); op_init : tx_initialized s = true; op_pend : pending s = None;
  op_path : hdPath s = path; op_exp : expert_mode s = x; op_content : ccontent (ctx s) = 0 }.
Definition filled (h : header_deploy) (pre : list Z) (s : app) : Prop :=
  exists r, tx_bufferFull s = true /\ in_ram (bufs s) = false /\ tx_data (bufs s) = pre ++ r /\ bytes (tx_data (bufs s)) /\
    cbuf (ctx s) = Some (false, 0) /\ zlen pre <= clen (ctx s) <= zlen (tx_data (bufs s)) /\ cobj_v1 (ctx s) = false /\
    obj_type s = type_WasmDeploy /\ obj_header s = h.
Definition phase (h : header_deploy) (pre sent : list Z) (s : app) : Prop :=
  tx_bufferFull s = false /\ tx_data (bufs s) = sent \/ filled h pre s.

Section large.
Variables (d : device) (dp : SD.deploy) (code rest path : list Z) (x : bool).
Hypothesis D : device_ok d.
Hypothesis GH : good_header (d_header dp).
Hypothesis Lh : zlen (d_hash dp) = 32.
Hypothesis Lc : zlen code < 2 ^ 32 - 65536.
Hypothesis B : bytes (SS.before_code dp code ++ code ++ rest).
Hypothesis Big : flash_size d < zlen (SS.before_code dp code) + zlen code.
Hypothesis Small : zlen (SS.before_code dp code) + 255 <= flash_size d.
Let pre := SS.before_code dp code.
Let h := hdr (d_header dp).

Lemma chunk_phase k c sent more s : opening d path x s -> phase h pre sent s -> zlen c <= 255 ->
  sent ++ c ++ more = pre ++ code ++ rest ->
  exists s1, wasm_append d (SS.cmd 4 k c) s = Ret (inl s1) /\ opening d path x s1 /\ phase h pre (sent ++ c) s1.
Proof.
  intros [Ob Oi Op Oh Ox Oc] Ph Lk E. unfold wasm_append, append_chunk. destruct (cmd_parts 4 k c) as (_ & _ & ->).
  destruct (buf_append (ram_size d) (flash_size d) (bufs s) c) as [b n] eqn:A.
  destruct (append_ok _ _ _ _ _ D Ob A) as (B' & Q). cbn [tx_bufferFull set_bufs].
  assert (O1 : opening d path x (set_bufs b s)) by (constructor; assumption).
  destruct Ph as [[F Ed]|(r & F & Ir & Ed & By & Cb & Cl & Cv & Ot & Oo)].
  - rewrite F. cbn [negb andb]. destruct (n =? zlen c) eqn:N; cbn [negb].
    + eexists. split; [reflexivity|]. split; [exact O1|]. left. split; [exact F|]. cbn [bufs set_bufs].
      destruct Q as [[_ Q]|(Z0 & Zp & _)]; [rewrite Q, Ed; reflexivity | lia].
    + assert (Nf : n <> zlen c) by lia. pose proof (append_full _ _ _ _ _ D Ob A Nf) as Full. rewrite Ed in Full.
      assert (Es : tx_data b = sent) by (destruct Q as [[Z0 _]|(_ & _ & Q)]; [lia | congruence]).
      assert (Ls : zlen sent <= flash_size d) by (rewrite <- Es; apply (tx_data_len d b B' D)).
      destruct (prefix_cut sent (c ++ more) pre (code ++ rest) E ltac:(unfold pre, zlen in *; lia)) as (r & Er & Ec).
      assert (Bs : bytes sent).
      { fold pre in B. rewrite <- E in B. apply bytes_app in B. tauto. }
      assert (T : tx_parse_wasm d (set_bufs b s) = Ret h).
      { unfold tx_parse_wasm. cbn [bufs set_bufs ctx]. rewrite Es, Er. apply cut_parses; auto.
        - apply (dev_hash d D).
        - fold pre. rewrite <- Er. exact Bs.
        - fold pre. rewrite <- Er. destruct D; lia.
        - rewrite Er, zlen_app in Ls. unfold pre in Ls. lia. }
      rewrite T. eexists. split; [reflexivity|]. destruct (tpw d (set_bufs b s)) as (A1 & A2 & A3 & A4 & A5 & A6 & A7).
      split.
      * constructor; cbn [set_full bufs tx_initialized pending hdPath expert_mode ctx]; try (rewrite ?A1, ?A2, ?A3, ?A4, ?A5, ?A6, ?A7; assumption).
        all: try congruence. rewrite wasm_content. exact Oc.
      * right. exists r. cbn [set_full tx_bufferFull bufs ctx obj_type obj_header]. rewrite A4. cbn [bufs set_bufs].
        assert (Ib : in_ram b = false) by (eapply append_in_flash; eauto).
        assert (Ne : tx_data b <> []).
        { rewrite Es, Er. unfold pre, SS.before_code. destruct (enc_header (d_header dp)) eqn:Eh; [discriminate|discriminate]. }
        unfold tx_parse_wasm_effect. cbn [bufs set_bufs]. rewrite T.
        destruct (tx_data b) as [|y l] eqn:Ey; [congruence|].
        assert (Zy : zlen (y :: l) <= flash_size d) by (rewrite Es; exact Ls). pose proof (zlen_nonneg (y :: l)).
        cbn [ctx set_deploy set_ctx here cbuf clen cobj_v1 obj_type obj_header bufs set_bufs].
        rewrite Ib. rewrite u16_small by (destruct D; lia).
        repeat split; try reflexivity; try lia; [congruence|congruence|]. rewrite Es, Er, zlen_app. pose proof (zlen_nonneg r). lia.
  - rewrite F. cbn [negb andb]. eexists. split; [reflexivity|]. split; [exact O1|]. right.
    assert (Ib : in_ram b = false) by (eapply append_in_flash; eauto).
    exists (if n =? zlen c then r ++ c else r). cbn [set_bufs tx_bufferFull bufs ctx obj_type obj_header].
    assert (Eb : tx_data b = pre ++ (if n =? zlen c then r ++ c else r)).
    { destruct Q as [[-> Q]|(Z0 & Zp & Q)]; rewrite Q, Ed; [rewrite Z.eqb_refl, app_assoc; reflexivity | replace (n =? zlen c) with false by lia; reflexivity]. }
    split; [exact F|]. split; [exact Ib|]. split; [exact Eb|]. split.
    { assert (Bc : bytes c) by (fold pre in B; rewrite <- E in B; apply bytes_app in B; destruct B as [_ B2]; apply bytes_app in B2; tauto).
      destruct Q as [[_ Q]|(_ & _ & Q)]; rewrite Q; [apply bytes_app; auto | exact By]. }
    split; [exact Cb|]. split; [|auto].
    destruct Q as [[-> Q]|(Z0 & Zp & Q)]; rewrite Q; [rewrite zlen_app; pose proof (zlen_nonneg c); lia|lia].
Qed.

Lemma chunks_phase cs : Forall (fun c => zlen c <= 255) cs -> forall sent more s, opening d path x s -> phase h pre sent s ->
  sent ++ List.concat cs ++ more = pre ++ code ++ rest ->
  exists s1 tr, run d s (map (fun c => Apdu (SS.cmd 4 1 c) true) cs) = Ret (s1, tr) /\ Forall (fun y => snd y = Status [] SA.ok) tr /\
    opening d path x s1 /\ phase h pre (sent ++ List.concat cs) s1.
Proof.
  induction 1 as [|c cs Lk F IH]; intros sent more s O Ph E; cbn [map run List.concat] in *.
  - exists s, []. rewrite app_nil_r. auto.
  - rewrite handle_cmd by (auto; apply O). change (4 =? 2) with false. change (4 =? 3) with false. cbv iota.
    rewrite <- app_assoc in E. destruct (chunk_phase 1 c sent _ s O Ph Lk E) as (s1 & W & O1 & Ph1).
    assert (St : handleSignWasm d (SS.cmd 4 1 c) s = Ret (s1, Status [] SA.ok)).
    { unfold handleSignWasm, process_wasm_chunk. rewrite W. destruct (cmd_parts 4 1 c) as (-> & -> & _). rewrite (op_init _ _ _ _ O). reflexivity. }
    rewrite St.
    destruct (IH (sent ++ c) more s1 O1 Ph1) as (s2 & tr & R & Ft & O2 & Ph2); [rewrite <- app_assoc; exact E|].
    rewrite R. eexists _, _. split; [reflexivity|]. split; [constructor; [reflexivity|exact Ft]|]. split; [exact O2|].
    rewrite <- app_assoc in Ph2. exact Ph2.
Qed.

Lemma lv_parts e o : forall bs r, mem e = bs ++ r -> o = 0 -> at_ e o bs.
Proof. intros bs r E ->. unfold at_. rewrite E. exact (slice_mid [] bs r). Qed.

(** the review *)
Lemma filled_items s : opening d path x s -> filled h pre s ->
  (wasm_run d s (parser_getWasmItem (wasm_header d s) 0) = Ret (mkItem (str "DeployHash") (VPaged (hexstr (d_hash dp)))) /\
              wasm_run d s (parser_getWasmItem (wasm_header d s) 1) = Ret (mkItem (str "BodyHash") (VPaged (hexstr (h_bodyhash (d_header dp)))))) /\
  (d_hash dp = p_hash (plat d) (enc_header (d_header dp)) -> exists u, tx_validate_wasm d s = Ret u) /\
  app_sign d s = Ret (Signed path (d_hash dp)).
Proof.
  intros O (r & F & Ir & Ed & By & Cb & Cl & Cv & Ot & Oo). pose proof (op_buf _ _ _ _ O) as Ob.
  assert (Cd : exists q, ctx_data (bufs s) (ctx s) = Some (pre ++ q) /\ zlen (pre ++ q) = clen (ctx s)).
  { unfold ctx_data. rewrite Cb. unfold tx_data in Ed, Cl. rewrite Ir in Ed, Cl.
    assert (Lf : zlen (firstn (Z.to_nat (fpos (bufs s))) (flash (bufs s))) <= zlen (flash (bufs s))) by (unfold zlen; rewrite firstn_length; lia).
    pose proof (zlen_nonneg pre).
    exists (firstn (Z.to_nat (clen (ctx s) - zlen pre)) r).
    assert (X : firstn (Z.to_nat (clen (ctx s))) (flash (bufs s)) = pre ++ firstn (Z.to_nat (clen (ctx s) - zlen pre)) r).
    { replace (firstn (Z.to_nat (clen (ctx s))) (flash (bufs s))) with (firstn (Z.to_nat (clen (ctx s))) (firstn (Z.to_nat (fpos (bufs s))) (flash (bufs s)))).
      - rewrite Ed, firstn_app. f_equal; [apply firstn_all2; unfold zlen in *; lia | f_equal; unfold zlen in *; lia].
      - rewrite firstn_firstn. f_equal. unfold zlen in *. rewrite firstn_length in Cl. lia. }
    split.
    - unfold slice. replace (_ && _) with true by lia. rewrite skipn_O. f_equal. exact X.
    - rewrite <- X. unfold zlen in *. rewrite firstn_length in *. lia. }
  destruct Cd as (q & Cd & Lq).
  assert (Bq : bytes (pre ++ q)).
  { rewrite Ed in By. apply bytes_app in By. destruct By as [By1 By2]. apply bytes_app. split; [exact By1|].
    unfold ctx_data in Cd. rewrite Cb in Cd. apply Forall_forall. intros b Hb. 
    assert (Hq : pre ++ q = firstn (Z.to_nat (clen (ctx s))) (tx_data (bufs s))).
    { unfold slice in Cd. destruct (_ && _) eqn:Sl; [|discriminate]. 
      assert (Y : forall (a b : list Z), Some a = Some b -> a = b) by congruence. apply Y in Cd. rewrite <- Cd, skipn_O.
      unfold tx_data in *. rewrite Ir in *. rewrite firstn_firstn. f_equal. unfold zlen in *. rewrite firstn_length in Cl. lia. }
    assert (In b (pre ++ r)).
    { rewrite <- Ed. rewrite <- (firstn_skipn (Z.to_nat (clen (ctx s))) (tx_data (bufs s))), <- Hq. apply in_or_app. left. apply in_or_app. right. exact Hb. }
    apply in_app_or in H. unfold bytes in *. rewrite Forall_forall in By1, By2. destruct H; auto. }
  set (e := ctx_of (plat d) (expert_mode s) true 40 (pre ++ q) (clen (ctx s))).
  assert (W : wf e).
  { unfold e. rewrite <- Lq. apply wf_ctx; [apply (dev_hash d D) | exact Bq |]. pose proof (tx_data_len _ _ Ob D). destruct D. lia. }
  assert (A : at_ e 0 (pre ++ q)) by (apply (lv_parts e 0 (pre ++ q) []); [symmetry; apply app_nil_r | reflexivity]).
  apply at_app in A. destruct A as [A _]. unfold pre, SS.before_code in A. apply at_app in A. destruct A as [AH A]. apply at_app in A. destruct A as [AX _].
  pose proof (header_at_ok e _ W GH AH) as [HL HPK HDL HK HT1 HT2 HG HB HD HC HALL HEND].
  replace (0 + zlen (enc_header (d_header dp))) with (zlen (enc_header (d_header dp))) in AX by lia.
  unfold tx_validate_wasm, wasm_run. rewrite Cd. fold e. unfold wasm_header. rewrite Cv, Oo. fold h in HL, HB.
  split; [split|split].
  - unfold parser_getWasmItem. cbn [Z.eqb]. rewrite HL. rewrite (step_at _ _ _ _ _ _ AX) by (symmetry; exact Lh). reflexivity.
  - unfold parser_getWasmItem. cbn [Z.eqb Pos.eqb]. rewrite (index_at _ _ _ _ _ _ _ W HB) by reflexivity. rewrite step_get_off.
    rewrite (step_at _ _ _ _ _ _ HB) by (symmetry; exact (gh_bodyhash _ GH)). reflexivity.
  - intros Hh. exists tt. unfold parser_validate_wasm. cbv zeta. rewrite step_ask, HL.
    rewrite (step_at _ _ _ _ _ _ HALL) by reflexivity. rewrite (step_at _ _ _ _ _ _ AX) by (symmetry; exact Lh).
    change (hash e) with (p_hash (plat d)). unfold check. rewrite (proj2 (list_eqb_eq _ _)) by (symmetry; exact Hh). reflexivity.
  - unfold app_sign, sign_preimage. rewrite (op_content _ _ _ _ O), Ot. cbn [Z.eqb andb orb type_WasmDeploy type_Transaction content_Deploy content_TransactionV1].
    change (_ || (0 =? content_TransactionV1)) with false. cbv iota.
    rewrite Oo, HL, Ed. unfold pre, SS.before_code. rewrite <- !app_assoc.
    pose proof (slice_mid (enc_header (d_header dp)) (d_hash dp)) as X. rewrite Lh in X. rewrite X, (op_path _ _ _ _ O). reflexivity.
Qed.
End large.

Lemma large_signed d s tr p cs c dp code args : device_ok d -> reach d s tr -> deploys_only tr -> pending s = None ->
  20 <= zlen p -> SA.casper_path (SS.words5 p) ->
  good_header (d_header dp) -> d_hash dp = p_hash (plat d) (enc_header (d_header dp)) -> bytes (enc_deploy dp) ->
  d_session dp = Module code args -> zlen code < 2 ^ 32 - 65536 ->
  flash_size d < zlen (SS.before_code dp code) + zlen code -> zlen (SS.before_code dp code) + 255 <= flash_size d ->
  List.concat cs ++ c = enc_deploy dp -> Forall (fun x => zlen x <= 255) (cs ++ [c]) ->
  exists s' st tr' s'',
    run d s (sends 4 p cs c) = Ret (s', tr' ++ [(Apdu (SS.cmd 4 2 c) true, st, NoReply)]) /\
    Forall (fun x => snd x = Status [] SA.ok) tr' /\
    pending s' = Some RWasm /\ review_count s' RWasm = 2 /\
    (forall kl, review_item d s' RWasm kl 0 = Ret (mkItem (text "DeployHash") (VPaged (ST.hex_lower (d_hash dp)))) /\
                review_item d s' RWasm kl 1 = Ret (mkItem (text "BodyHash") (VPaged (ST.hex_lower (h_bodyhash (d_header dp)))))) /\
    step d s' (Approve true) = Ret (s'', Signed (SS.words5 p) (d_hash dp)) /\ pending s'' = None.
Proof.
  intros D R Do P Lp Cp GH Eh Bd Es Lc Big Small Ed Fl.
  assert (Lh : zlen (d_hash dp) = 32) by (rewrite Eh; apply (dev_hash d D)).
  apply Forall_app in Fl. destruct Fl as [Fl Fc]. inversion Fc as [|? ? Lk _]; subst. clear Fc.
  set (rest := enc_args args ++ le 4 (S.len (d_approvals dp)) ++ List.concat (List.map enc_approval (d_approvals dp))).
  assert (Ew : enc_deploy dp = SS.before_code dp code ++ code ++ rest).
  { unfold enc_deploy, enc_body, SS.before_code, rest. rewrite Es. cbn [enc_session]. unfold lv. rewrite <- !app_assoc. cbn [Datatypes.app]. rewrite <- !app_assoc. reflexivity. }
  assert (Bw : bytes (SS.before_code dp code ++ code ++ rest)) by (rewrite <- Ew; exact Bd).
  unfold sends, SS.session. cbn [map]. rewrite map_app, map_map. cbn [map]. change (?x :: ?y ++ ?z) with ((x :: y) ++ z).
  set (s0 := opened_by 4 p s).
  assert (O0 : opening d (SS.words5 p) (expert_mode s) s0).
  { constructor; try reflexivity; try exact P.
    - pose proof (reach_buf _ _ _ D R) as [? ? ? ? ?]. destruct D as [_ ? ? ?]. constructor; cbn; auto; lia.
    - exact (content_zero _ _ _ D R Do). }
  set (h := hdr (d_header dp)). set (pre := SS.before_code dp code) in *.
  assert (Ph0 : phase h pre [] s0) by (left; split; reflexivity).
  rewrite Ew in Ed.
  destruct (chunks_phase d dp code rest (SS.words5 p) (expert_mode s) D GH Lh Lc Bw Big Small cs Fl [] c s0 O0 Ph0 Ed) as (s1 & tr1 & R1 & F1 & O1 & Ph1).
  cbn [Datatypes.app] in Ph1.
  assert (Ed' : List.concat cs ++ c ++ [] = pre ++ code ++ rest) by (rewrite app_nil_r; exact Ed).
  destruct (chunk_phase d dp code rest (SS.words5 p) (expert_mode s) D GH Lh Lc Bw Big Small 2 c _ _ s1 O1 Ph1 Lk Ed') as (s2 & W & O2 & Ph2).
  assert (F2 : filled h pre s2).
  { destruct Ph2 as [[_ E2]|F2]; [|exact F2]. exfalso. pose proof (tx_data_len _ _ (op_buf _ _ _ _ O2) D) as L2. rewrite E2, Ed, !zlen_app in L2.
    pose proof (zlen_nonneg rest). lia. }
  set (s3 := set_init false s2).
  assert (F3 : filled h pre s3) by exact F2.
  destruct (filled_items d dp code (SS.words5 p) (expert_mode s) D GH Lh s2 O2 F2) as ((I0 & I1) & V & Sg).
  destruct (V Eh) as (u & V'). clear V.
  exists (set_pending (Some RWasm) s3), s1, ((Apdu (SS.cmd 4 0 p) true, s, Status [] SA.ok) :: tr1), (set_pending None s3).
  split.
  { apply run_app. eexists _, _, _. split; [|split; [|reflexivity]].
    - cbn [run]. rewrite init_step by auto. fold s0. rewrite R1. reflexivity.
    - cbn [run]. rewrite handle_cmd by (auto; apply O1). change (4 =? 2) with false. change (4 =? 3) with false. cbv iota.
      assert (St : handleSignWasm d (SS.cmd 4 2 c) s1 = Ret (set_pending (Some RWasm) s3, NoReply)).
      { unfold handleSignWasm, process_wasm_chunk. rewrite W. destruct (cmd_parts 4 2 c) as (-> & -> & _). rewrite (op_init _ _ _ _ O1).
        change (negb (0 =? 0)) with false. change (2 =? 0) with false. change ((2 =? 1) || (2 =? 2)) with true. change (2 =? 1) with false.
        cbn [negb]. cbv iota zeta. fold s3.
        destruct F3 as (r & Fu & _). rewrite Fu. change (tx_validate_wasm d s3) with (tx_validate_wasm d s2). rewrite V'. reflexivity. }
      rewrite St. reflexivity. }
  split; [constructor; [reflexivity|exact F1]|]. split; [reflexivity|]. split; [reflexivity|].
  assert (Bh : bytes (d_hash dp)) by (rewrite Eh; apply (dev_hash d D)).
  assert (Bb : bytes (h_bodyhash (d_header dp))).
  { unfold enc_deploy in Bd. apply bytes_app in Bd. destruct Bd as [Bd _]. unfold enc_header in Bd. rewrite !bytes_app in Bd. tauto. }
  split.
  - intros kl. rewrite <- !hexstr_lower by assumption. split; [exact I0 | exact I1].
  - split; [|reflexivity]. unfold step. cbn [pending set_pending].
    change (app_sign d (set_pending (Some RWasm) s3)) with (app_sign d s2). rewrite Sg. reflexivity.
Qed.
