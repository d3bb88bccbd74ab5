(** Messages, addresses, locked devices, status words. *)
From Verif Require Import Base Zxlib Crypto Utils RuntimeArg Deploy DeployUI TxV1 TxV1UI Parser BaseFacts Spec SpecText SpecDeploy SpecTx SpecLayout Exec ArgsFacts ReaderFacts TextFacts RangeFacts BindFacts OklFacts BindCases SafeFacts TxInv Demo Shows ReviewFacts TxShow TxReview SpecApp SpecSess App AppFacts AppHist AppClaims AppSign TxAccept TxSign MoreSign SessFacts SessTx.
Import S.

(** * A complete session for a message *)
Definition message_text (rest : list Z) : list Z := text "Casper Message:" ++ [10] ++ rest.

Lemma message_accepted rest : zlen (message_text rest) < 65536 -> parser_parse_message (message_text rest) = Ret tt.
Proof.
  intros L. unfold parser_parse_message.
  assert (E : message_text rest = messagePrefix ++ rest) by (unfold message_text, messagePrefix; rewrite <- app_assoc; reflexivity).
  rewrite E in *. rewrite zlen_app in *. pose proof (zlen_nonneg rest). assert (K : zlen messagePrefix = 16) by reflexivity.
  rewrite K in *. rewrite u16_small by lia. replace (16 + zlen rest =? 0) with false by lia. replace (16 + zlen rest <? 16) with false by lia.
  rewrite firstn_app, Nat.sub_diag, firstn_all, firstn_O, app_nil_r. rewrite (proj2 (list_eqb_eq _ _) eq_refl). reflexivity.
Qed.

Lemma msg_session d s p cs c rest : device_ok d -> buf_ok d (bufs s) -> pending s = None -> 20 <= zlen p -> SA.casper_path (SS.words5 p) ->
  zlen (List.concat cs ++ c) <= flash_size d -> List.concat cs ++ c = message_text rest ->
  exists s' st s1 tr, run d s (sends 3 p cs c) = Ret (s', tr ++ [(Apdu (SS.cmd 3 2 c) true, st, NoReply)]) /\
    Forall (fun x => snd x = Status [] SA.ok) tr /\ s' = set_pending (Some RMsg) (tx_parse_message_effect s1) /\
    tx_data (bufs s1) = List.concat cs ++ c /\ buf_ok d (bufs s1) /\
    hdPath s1 = SS.words5 p /\ expert_mode s1 = expert_mode s /\ ctx s1 = ctx s.
Proof.
  intros D B P Lp C L M. unfold sends, SS.session. cbn [map]. rewrite map_app, map_map. cbn [map].
  change (?x :: ?y ++ ?z) with ((x :: y) ++ z).
  set (s0 := opened_by 3 p s).
  assert (B0 : buf_ok d (bufs s0)).
  { destruct B as [? ? ? ? ?], D as [_ ? ? ?]. constructor; cbn; auto; lia. }
  assert (T : parser_parse_message (List.concat cs ++ c) = Ret tt).
  { rewrite M in *. apply message_accepted. destruct D; lia. }
  rewrite zlen_app in L. pose proof (zlen_nonneg c).
  destruct (chunks_sent d 3 cs D ltac:(auto) s0 B0 P eq_refl) as (b & tr & R & Bb & Eb & F).
  { change (tx_data (bufs s0)) with (@nil Z). rewrite zlen_nil. lia. }
  change (tx_data (bufs s0)) with (@nil Z) in Eb. cbn [Datatypes.app] in Eb.
  assert (Ra : run d s (Apdu (SS.cmd 3 0 p) true :: map (fun x => Apdu (SS.cmd 3 1 x) true) cs) = Ret (set_bufs b s0, (Apdu (SS.cmd 3 0 p) true, s, Status [] SA.ok) :: tr)).
  { cbn [run]. rewrite init_step by auto. fold s0. rewrite R. reflexivity. }
  destruct (buf_append (ram_size d) (flash_size d) b c) as [b2 n] eqn:A.
  assert (n = zlen c) as ->.
  { destruct (Z.eq_dec n (zlen c)) as [|N]; [assumption|]. pose proof (append_full _ _ _ _ _ D Bb A N) as X. rewrite Eb in X. lia. }
  destruct (append_ok _ _ _ _ _ D Bb A) as (B' & Q).
  assert (E : tx_data b2 = List.concat cs ++ c) by (rewrite <- Eb; destruct Q as [[_ Q]|(Z0 & Zp & _)]; [exact Q | lia]).
  set (s1 := set_bufs b2 s0).
  assert (St : step d (set_bufs b s0) (Apdu (SS.cmd 3 2 c) true) = Ret (set_pending (Some RMsg) (tx_parse_message_effect s1), NoReply)).
  { rewrite handle_cmd by auto. cbn [Z.eqb]. unfold handleSignMessage, process_chunk, append_chunk. destruct (cmd_parts 3 2 c) as (-> & -> & ->).
    cbn [bufs set_bufs tx_initialized s0 opened_by Z.eqb set_init negb orb]. rewrite A, (Z.eqb_refl (zlen c)). cbv zeta. cbn [Z.eqb negb].
    cbn. rewrite E, T. reflexivity. }
  eexists _, _, s1, _. split.
  - apply run_app. eexists _, _, _. split; [exact Ra|]. split; [|reflexivity]. cbn [run]. rewrite St. reflexivity.
  - split; [constructor; [reflexivity|exact F]|]. split; [reflexivity|]. split; [exact E|]. split; [exact B'|]. repeat split; reflexivity.
Qed.

Lemma message_shown d s tr p cs c rest : device_ok d -> reach d s tr -> pending s = None ->
  20 <= zlen p -> SA.casper_path (SS.words5 p) -> List.concat cs ++ c = message_text rest -> zlen (message_text rest) <= flash_size d ->
  exists s' st tr',
    run d s (sends 3 p cs c) = Ret (s', tr' ++ [(Apdu (SS.cmd 3 2 c) true, st, NoReply)]) /\
    Forall (fun x => snd x = Status [] SA.ok) tr' /\
    pending s' = Some RMsg /\ review_count s' RMsg = 1 /\
    (forall kl, review_item d s' RMsg kl 0 = Ret (mkItem (text "Msg hash") (VPaged (ST.hex_lower (p_hash (plat d) (message_text rest)))))) /\
    (deploys_only tr -> exists s'', step d s' (Approve true) = Ret (s'', Signed (SS.words5 p) (message_text rest)) /\ pending s'' = None).
Proof.
  intros D R P Lp C M L.
  destruct (msg_session d s p cs c rest D (reach_buf _ _ _ D R) P Lp C ltac:(rewrite M; exact L) M) as (s' & st & s1 & tr' & Rn & F & E' & Ed & Bs & Eh & Ex & Ec).
  destruct (tpm s1) as (A1 & A2 & A3 & A4 & A5 & A6 & A7).
  assert (Eb : bufs s' = bufs s1) by (rewrite E'; cbn [bufs set_pending]; assumption).
  assert (Lm : zlen (message_text rest) < 65536) by (destruct D; lia).
  assert (T : parser_parse_message (tx_data (bufs s')) = Ret tt) by (rewrite Eb, Ed, M; apply message_accepted; exact Lm).
  destruct (msg_ctx d s' s1 D ltac:(rewrite Eb; exact Bs) (eq_sym Eb) E' T) as (Cx & Ot & Cc).
  assert (Dt : tx_data (bufs s') = message_text rest) by (rewrite Eb, Ed; exact M).
  exists s', st, tr'. split; [exact Rn|]. split; [exact F|]. split; [rewrite E'; reflexivity|]. split; [reflexivity|]. split.
  - intros kl. pose proof (zlen_nonneg (message_text rest)). cbn [review_item]. rewrite Cx, Dt. unfold parser_getMessageItem. change (0 =? 0) with true. cbv iota.
    rewrite u16_small by lia. unfold slice. replace (_ && _) with true by lia. rewrite skipn_O. unfold zlen. rewrite Nat2Z.id, firstn_all.
    rewrite hexstr_lower by apply (dev_hash d D). reflexivity.
  - intros DO. pose proof (content_zero _ _ _ D R DO) as C0. exists (set_pending None s').
    assert (Sg : app_sign d s' = Ret (Signed (SS.words5 p) (message_text rest))).
    { unfold app_sign. rewrite Ot, Cc, Ec, C0, Dt. unfold sign_preimage. rewrite Ot, Cc, Ec, C0.
      replace (hdPath s') with (SS.words5 p) by (rewrite E'; cbn [hdPath set_pending]; congruence). reflexivity. }
    unfold step. replace (pending s') with (Some RMsg) by (rewrite E'; reflexivity). rewrite Sg. split; reflexivity.
Qed.

(** * Address requests *)
Lemma fill_known d p k : device_ok d -> keys_ok d -> pubkey d p = Some k -> fill_address d p = Ret (k ++ ST.key_text (p_hash (plat d)) 2 k).
Proof.
  intros D [Kk] H. unfold fill_address. rewrite H. destruct (Kk _ _ H) as [L B].
  rewrite encode_addr_ok; auto; try lia. intros x; apply (dev_hash d D).
Qed.

Definition kept (s s' : app) : Prop :=
  bufs s' = bufs s /\ tx_initialized s' = tx_initialized s /\ tx_bufferFull s' = tx_bufferFull s /\ expert_mode s' = expert_mode s.

Lemma address_given d s p k key : device_ok d -> keys_ok d -> pending s = None -> 20 <= zlen p -> SA.casper_path (SS.words5 p) ->
  pubkey d (SS.words5 p) = Some key ->
  let reply := Status (key ++ ST.key_text (p_hash (plat d)) 2 key) SA.ok in
  exists s', kept s s' /\
    if k =? 0 then step d s (Apdu (SS.cmd 1 k p) true) = Ret (s', reply) /\ pending s' = None
    else step d s (Apdu (SS.cmd 1 k p) true) = Ret (s', NoReply) /\ pending s' = Some RAddr /\
      review_count s' RAddr = (if expert_mode s then 2 else 1) /\
      (forall kl, review_item d s' RAddr kl 0 = Ret (mkItem (text "Address") (VPaged (ST.key_text (p_hash (plat d)) 2 key)))) /\
      (expert_mode s = true -> forall kl, review_item d s' RAddr kl 1 = Ret (mkItem (text "Path") (VPaged (bip32_text d (SS.words5 p))))) /\
      (forall ok, exists s'', step d s' (Approve ok) = Ret (s'', reply) /\ pending s'' = None /\ kept s s'') /\
      (exists s'', step d s' Reject = Ret (s'', Status [] SA.not_allowed) /\ pending s'' = None /\ kept s s'').
Proof.
  intros D Kk P Lp C Hk reply. destruct (keys_33 d Kk _ _ Hk) as [L B].
  set (s1 := set_answer (key ++ ST.key_text (p_hash (plat d)) 2 key) (set_path (SS.words5 p) s)).
  assert (St : step d s (Apdu (SS.cmd 1 k p) true) = if k =? 0 then Ret (s1, reply) else Ret (set_pending (Some RAddr) s1, NoReply)).
  { unfold step. rewrite P. unfold handleApdu.
    assert (Lc : (zlen (SS.cmd 1 k p) <? 5) = false) by (unfold SS.cmd, zlen; rewrite app_length; cbn [List.length]; lia).
    rewrite Lc. change (nth 0 (SS.cmd 1 k p) 0) with 17. change (nth 1 (SS.cmd 1 k p) 0) with 1. cbn [Z.eqb Pos.eqb negb orb INS_GET_VERSION INS_GET_ADDR INS_SIGN INS_SIGN_MSG INS_SIGN_WASM].
    unfold handleGetAddr. destruct (extractHDPath (SS.cmd 1 k p) s) as [s0 r] eqn:X. apply extract_inv in X.
    change (data_of (SS.cmd 1 k p)) with p in X. change (SA.path (SS.cmd 1 k p)) with (SS.words5 p) in X.
    destruct X as [(? & _)|(_ & -> & ->)]; [lia|]. rewrite (path_casper _ C). cbn [hdPath set_path].
    rewrite (fill_known _ _ _ D Kk Hk). change (P1_of (SS.cmd 1 k p)) with k. destruct (k =? 0); reflexivity. }
  destruct (k =? 0).
  - exists s1. split; [repeat split|]. split; [exact St | exact P].
  - exists (set_pending (Some RAddr) s1). split; [repeat split|]. split; [exact St|]. split; [reflexivity|]. split; [reflexivity|].
    assert (F33 : firstn 33 (answer (set_pending (Some RAddr) s1)) = key).
    { unfold s1. cbn [answer set_pending set_answer]. rewrite firstn_app. unfold zlen in L. replace (33 - List.length key)%nat with 0%nat by lia.
      rewrite firstn_O, app_nil_r. apply firstn_all2. lia. }
    assert (En : encode_addr (p_hash (plat d)) 100 (2 :: key) = Ret (ST.key_text (p_hash (plat d)) 2 key, true))
      by (apply encode_addr_ok; auto; try lia; intros x; apply (dev_hash d D)).
    split; [intros kl; cbn [review_item]; unfold addr_getItem; rewrite F33, En; reflexivity|].
    split; [intros X kl; cbn [review_item]; unfold addr_getItem; rewrite F33, En; unfold s1; cbn; rewrite X; reflexivity|].
    split; [intros ok|]; eexists; (split; [reflexivity|]); repeat split.
Qed.

(** * A locked device *)
Lemma locked d s bs : 
  match pending s with
  | Some _ => step d s (Apdu bs false) = Ret (s, NoReply)
  | None => exists data sw, step d s (Apdu bs false) = Ret (s, Status data sw) /\
      (data = [] /\ In sw [SA.wrong_class; SA.wrong_size; SA.wrong_ins; SA.not_allowed] \/
       SA.command bs = true /\ SA.ins bs = 0 /\ data = version_bytes d /\ sw = SA.ok)
  end.
Proof.
  unfold step. destruct (pending s); [reflexivity|].
  unfold handleApdu, throw, SA.command, SA.ins, SA.cla. change (S.len bs) with (zlen bs). change 0x11 with 17.
  destruct (nth 0 bs 0 =? 17) eqn:E0; cbn [negb andb]; [|eexists _, _; split; [reflexivity|]; left; split; [reflexivity|]; cbn; tauto].
  destruct (zlen bs <? 5) eqn:E1; [eexists _, _; split; [reflexivity|]; left; split; [reflexivity|]; cbn; tauto|].
  replace (5 <=? zlen bs) with true by lia.
  unfold INS_GET_VERSION, INS_GET_ADDR, INS_SIGN, INS_SIGN_MSG, INS_SIGN_WASM.
  destruct (nth 1 bs 0 =? 0) eqn:I0; [eexists _, _; split; [reflexivity|]; right; repeat split; lia|].
  repeat match goal with |- context [if ?c then _ else _] => destruct c end;
    eexists _, _; (split; [reflexivity|]); left; (split; [reflexivity|]); cbn; tauto.
Qed.

(** * Status words *)
Definition all_words : list Z := [0x6400; 0x6700; 0x6983; 0x6984; 0x6986; 0x6987; 0x6B00; 0x6D00; 0x6E00; 0x6F01; 0x9000].
Lemma apdu_words d bs pin s s' data sw : handleApdu d bs pin s = Ret (s', Status data sw) -> In sw all_words.
Proof.
  unfold handleApdu, throw.
  destruct (negb _); [intros H; injection H as _ _ <-; cbn; tauto|].
  destruct (_ <? 5); [intros H; injection H as _ _ <-; cbn; tauto|]. cbv zeta.
  destruct (_ =? INS_GET_VERSION); [intros H; injection H as _ _ <-; cbn; tauto|].
  destruct (_ || _); [|intros H; injection H as _ _ <-; cbn; tauto].
  destruct (negb pin); [intros H; injection H as _ _ <-; cbn; tauto|].
  assert (Ci : forall s0 s1 e, chunk_init bs s0 = (s1, Some e) -> In e all_words).
  { intros s0 s1 e. unfold chunk_init, extractHDPath. destruct (zlen (skipn 5 bs) <? 20); [intros X; injection X as _ <-; cbn; tauto|].
    cbv zeta. destruct (path_ok _); intros X; [discriminate|injection X as _ <-; cbn; tauto]. }
  assert (Pc : forall e s1, process_chunk d bs s = Threw e s1 -> In e all_words).
  { intros e s1. unfold process_chunk. destruct (negb (P2_of bs =? 0)); [intros X; injection X as <- _; cbn; tauto|].
    destruct (P1_of bs =? 0).
    - destruct (chunk_init bs s) as [s0 [r|]] eqn:Q; [|discriminate]. intros X; injection X as <- _. eauto.
    - destruct (_ || _); [|intros X; injection X as <- _; cbn; tauto].
      destruct (negb (tx_initialized s)); [intros X; injection X as <- _; cbn; tauto|].
      destruct (append_chunk d s bs) as [s0 []]; [destruct (P1_of bs =? 1); discriminate|intros X; injection X as <- _; cbn; tauto]. }
  assert (Pw : forall e s1, process_wasm_chunk d bs s = Ret (Threw e s1) -> In e all_words).
  { intros e s1. unfold process_wasm_chunk. destruct (negb (P2_of bs =? 0)); [intros X; injection X as <- _; cbn; tauto|].
    destruct (P1_of bs =? 0).
    - destruct (chunk_init bs s) as [s0 [r|]] eqn:Q; [|discriminate]. intros X; injection X as <- _. eauto.
    - destruct (_ || _); [|intros X; injection X as <- _; cbn; tauto].
      destruct (negb (tx_initialized s)); [intros X; injection X as <- _; cbn; tauto|].
      destruct (wasm_append d bs s) as [[s0|s0]|e0|u]; try discriminate; [destruct (P1_of bs =? 1); discriminate|intros X; injection X as <- _; cbn; tauto]. }
  destruct (_ =? INS_GET_ADDR).
  { unfold handleGetAddr, extractHDPath, throw. cbv zeta. destruct (zlen (skipn 5 bs) <? 20); [intros X; injection X as _ _ <-; cbn; tauto|].
    destruct (path_ok _); [|intros X; injection X as _ _ <-; cbn; tauto].
    destruct (fill_address _ _) as [a|e|u] eqn:F; try discriminate.
    - destruct (P1_of bs =? 0); intros X; [injection X as _ _ <-; cbn; tauto | discriminate].
    - pose proof (fill_fail _ _ _ F); subst e. intros X; injection X as _ _ <-; cbn; tauto. }
  destruct (_ =? INS_SIGN).
  { unfold handleSign, throw. destruct (process_chunk d bs s) as [s1|s1|e s1]; [intros X; injection X as _ _ <-; cbn; tauto| |intros X; injection X as _ _ <-; eauto].
    cbv zeta. destruct (tx_parse _ _ _); intros X; try discriminate. injection X as _ _ <-. cbn; tauto. }
  destruct (_ =? INS_SIGN_MSG).
  { unfold handleSignMessage, throw. destruct (process_chunk d bs s) as [s1|s1|e s1]; [intros X; injection X as _ _ <-; cbn; tauto| |intros X; injection X as _ _ <-; eauto].
    cbv zeta. destruct (parser_parse_message _); intros X; try discriminate. injection X as _ _ <-. cbn; tauto. }
  unfold handleSignWasm, throw. destruct (process_wasm_chunk d bs s) as [[s1|s1|e s1]|e0|u]; try discriminate;
    [intros X; injection X as _ _ <-; cbn; tauto| |intros X; injection X as _ _ <-; eauto].
  cbv zeta. destruct (if tx_bufferFull _ then _ else _) as [[s2 []]|e|u]; try discriminate; [|intros X; injection X as _ _ <-; cbn; tauto].
  destruct (tx_validate_wasm d s2); intros X; try discriminate. injection X as _ _ <-. cbn; tauto.
Qed.

Lemma step_words d s e s' data sw : step d s e = Ret (s', Status data sw) -> In sw all_words.
Proof.
  unfold step. destruct (pending s) as [r|]; destruct e as [bs pin|ok| |x]; try discriminate.
  - intros H. destruct r; try (injection H as _ _ <-; cbn; tauto).
    all: destruct ok; [|injection H as _ _ <-; cbn; tauto].
    all: destruct (app_sign d s) as [rp|e|u] eqn:A; try discriminate; injection H as _ ->.
    all: unfold app_sign in A; cbv zeta in A; match type of A with match ?c with _ => _ end = _ => destruct c as [m|] end; try discriminate;
      destruct (sign_preimage s m); try discriminate; injection A as _ <-; cbn; tauto.
  - intros H; injection H as _ _ <-; cbn; tauto.
  - apply apdu_words.
Qed.

Lemma words_closed d s es s' tr : run d s es = Ret (s', tr) ->
  Forall (fun x => match snd x with Status data sw => In sw all_words | _ => True end) tr.
Proof.
  revert s tr. induction es as [|e es IH]; intros s tr H; cbn [run] in H.
  - injection H as _ <-. constructor.
  - destruct (step d s e) as [[s1 rp]| |] eqn:E; try discriminate.
    destruct (run d s1 es) as [[s2 tr2]| |] eqn:R; try discriminate. injection H as -> <-.
    constructor; [|eapply IH; exact R]. cbn [snd]. destruct rp; auto. eapply step_words; exact E.
Qed.

(** * Never stuck *)
Lemma after_reject d s tr : reach d s tr ->
  exists s0 rp, step d s Reject = Ret (s0, rp) /\ reach d s0 (tr ++ [(Reject, s, rp)]) /\ pending s0 = None /\ expert_mode s0 = expert_mode s.
Proof.
  intros R. unfold step. destruct (pending s) as [r|] eqn:P; eexists _, _; (split; [reflexivity|]);
    (split; [apply reach_step; [exact R|exact I|unfold step; rewrite P; reflexivity]|]); auto.
Qed.
Lemma run_cons d s e es s0 rp s' tr : step d s e = Ret (s0, rp) -> run d s0 es = Ret (s', tr) -> run d s (e :: es) = Ret (s', (e, s, rp) :: tr).
Proof. intros E R. cbn [run]. rewrite E, R. reflexivity. Qed.

Lemma never_stuck d s tr p cs c t : device_ok d -> reach d s tr ->
  20 <= zlen p -> SA.casper_path (SS.words5 p) -> bytes (List.concat cs ++ c) -> zlen (List.concat cs ++ c) <= flash_size d ->
  tx_parse (plat d) (expert_mode s) (List.concat cs ++ c) = Ret t ->
  exists s' tr' h s'',
    run d s (Reject :: sends 2 p cs c) = Ret (s', tr') /\
    pending s' = Some (RTx t) /\ review_count s' (RTx t) = getNumItems (expert_mode s) t /\
    (forall kl i, review_item d s' (RTx t) kl i = tx_getItem (plat d) (expert_mode s) kl (List.concat cs ++ c) t i) /\
    step d s' (Approve true) = Ret (s'', Signed (SS.words5 p) h) /\ pending s'' = None /\ hash_in (p_hash (plat d)) (List.concat cs ++ c) h.
Proof.
  intros D R Lp C B L T. destruct (after_reject _ _ _ R) as (s0 & rp & St & R0 & P0 & X0). rewrite <- X0 in T |- *.
  destruct (tx_signed d s0 _ p cs c t D R0 P0 Lp C B L T) as (s' & st & tr' & h & s'' & Rn & _ & P' & N & It & Ap & Pe & Hi & _).
  eexists s', _, h, s''. split; [exact (run_cons _ _ _ _ _ _ _ _ St Rn)|]. auto 10.
Qed.
Lemma never_stuck_deploy d s tr p cs c dp lines : device_ok d -> reach d s tr ->
  20 <= zlen p -> SA.casper_path (SS.words5 p) ->
  SD.good_deploy (p_hash (plat d)) dp -> expert_ok (expert_mode s) (p_time (plat d)) (SD.d_header dp) ->
  SD.review (p_hash (plat d)) (expert_mode s) dp = Some lines ->
  List.concat cs ++ c = SD.enc_tx dp -> zlen (SD.enc_tx dp) <= flash_size d ->
  exists s' tr' r s'', run d s (Reject :: sends 2 p cs c) = Ret (s', tr') /\
    pending s' = Some r /\ review_count s' r = zlen lines /\
    (forall i l, nth_error lines i = Some l -> forall kl,
       exists it, review_item d s' r kl (Z.of_nat i) = Ret it /\ shows (p_hash (plat d)) (p_time (plat d)) l it) /\
    step d s' (Approve true) = Ret (s'', Signed (SS.words5 p) (SD.d_hash dp)) /\ pending s'' = None.
Proof.
  intros D R Lp C G X Rv E L. destruct (after_reject _ _ _ R) as (s0 & rp & St & R0 & P0 & X0). rewrite <- X0 in X, Rv.
  destruct (deploy_signed d s0 _ p cs c dp lines D R0 P0 Lp C G X Rv E L) as (s' & st & tr' & r & s'' & Rn & _ & P' & N & It & Ap & Pe).
  eexists s', _, r, s''. split; [exact (run_cons _ _ _ _ _ _ _ _ St Rn)|]. auto 10.
Qed.
Lemma never_stuck_v1 d s tr p cs c t lines : device_ok d -> reach d s tr ->
  20 <= zlen p -> SA.casper_path (SS.words5 p) ->
  SX.good_transaction (p_hash (plat d)) t -> xexpert_ok (expert_mode s) (p_time (plat d)) (SX.x_payload t) ->
  SX.review (p_hash (plat d)) (expert_mode s) t = Some lines -> SX.before_args t < 256 ->
  List.concat cs ++ c = SX.enc_v1 t -> zlen (SX.enc_v1 t) <= flash_size d ->
  exists s' tr' r s'', run d s (Reject :: sends 2 p cs c) = Ret (s', tr') /\
    pending s' = Some r /\ review_count s' r = zlen lines /\
    (forall i l, nth_error lines i = Some l -> forall kl,
       exists it, review_item d s' r kl (Z.of_nat i) = Ret it /\ xshows (p_hash (plat d)) (p_time (plat d)) l it) /\
    step d s' (Approve true) = Ret (s'', Signed (SS.words5 p) (SX.x_hash t)) /\ pending s'' = None.
Proof.
  intros D R Lp C G X Rv BA E L. destruct (after_reject _ _ _ R) as (s0 & rp & St & R0 & P0 & X0). rewrite <- X0 in X, Rv.
  destruct (transaction_signed d s0 _ p cs c t lines D R0 P0 Lp C G X Rv BA E L) as (s' & st & tr' & r & s'' & Rn & _ & P' & N & It & Ap & Pe).
  eexists s', _, r, s''. split; [exact (run_cons _ _ _ _ _ _ _ _ St Rn)|]. auto 10.
Qed.
