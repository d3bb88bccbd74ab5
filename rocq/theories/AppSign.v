(** What is signed against what is shown. *)
From Verif Require Import Base Zxlib Crypto Utils RuntimeArg Deploy DeployUI TxV1 TxV1UI Parser BaseFacts Spec Exec ArgsFacts ReaderFacts SpecText TextFacts RangeFacts BindFacts OklFacts Demo BindCases SpecApp App AppFacts AppHist AppClaims.

(** * Hexadecimal *)
Lemma hexstr_lower bs : bytes bs -> hexstr bs = ST.hex_lower bs.
Proof.
  intros B. unfold hexstr, ST.hex_lower, ST.nibbles. induction B as [|b r Hb _ IH]; [reflexivity|].
  cbn [flat_map map Datatypes.app]. rewrite IH. unfold byte in Hb.
  assert (D : forall n, 0 <= n < 16 -> nth (Z.to_nat n) HEX_CHARS 0 = if n <? 10 then 48 + n else 87 + n).
  { intros n Hn. assert (X : In n (map Z.of_nat (seq 0 16))).
    { apply in_map_iff. exists (Z.to_nat n). split; [lia|]. apply in_seq. lia. }
    cbn in X. repeat (destruct X as [<-|X]; [reflexivity|]). destruct X. }
  rewrite !D by lia. reflexivity.
Qed.
Lemma unhex_lower bs : bytes bs -> ST.unhex (ST.hex_lower bs) = Some bs.
Proof.
  intros B. unfold ST.hex_lower. induction B as [|b r Hb _ IH]; [reflexivity|]. unfold byte in Hb.
  change (ST.nibbles (b :: r)) with (b / 16 :: b mod 16 :: ST.nibbles r). cbn [map ST.unhex].
  assert (D : forall n, 0 <= n < 16 -> ST.hex_digit (if n <? 10 then 48 + n else 87 + n) = Some n).
  { intros n Hn. pose proof (hex_digit_cased false n Hn) as X. cbn beta iota in X.
    replace (97 + (n - 10)) with (87 + n) in X by lia. exact X. }
  rewrite !D by lia. rewrite IH. f_equal. f_equal. lia.
Qed.

(** * Transactions *)
Lemma parse_of_tx pf x data t : tx_parse pf x data = Ret t -> zlen data < 65536 ->
  exists k rest, data = k :: rest /\ rest <> [] /\ parser_parse pf x data = Ret t /\
    match t with TDeploy _ => k = 0 | TV1 _ => k = 1 end.
Proof.
  intros H L. unfold tx_parse in H. pose proof (zlen_nonneg data). rewrite u16_small in H by lia.
  destruct (zlen data =? 0) eqn:E0; [discriminate|]. destruct data as [|k rest]; [discriminate|].
  destruct (zlen (k :: rest) =? 1) eqn:E1; [discriminate|].
  exists k, rest. split; [reflexivity|]. split; [intros ->; rewrite zlen_cons, zlen_nil in E1; lia|].
  unfold bind at 1 in H.
  destruct (parse_content k (ctx_of pf x false 40 rest (zlen (k :: rest) - 1)) 0) as [[t'|e|u] o] eqn:P; try discriminate.
  assert (t' = t) as ->.
  { unfold bind in H. destruct (parser_validate t' _ o) as [[its|e|u] o']; try discriminate. cbn in H. congruence. }
  split.
  - unfold parser_parse. rewrite u16_small by lia. rewrite E0, E1. rewrite P. reflexivity.
  - unfold parse_content in P. change content_Deploy with 0 in P. change content_TransactionV1 with 1 in P.
    destruct (k =? 0) eqn:K0.
    + unfold bind in P. destruct (parser_read_deploy _ _) as [[v|e|u] o']; try discriminate. cbn in P. injection P as <- <-. lia.
    + destruct (k =? 1) eqn:K1; [|discriminate].
      unfold bind in P. destruct (parser_read_transactionV1 _ _) as [[v|e|u] o']; try discriminate. cbn in P. injection P as <- <-. lia.
Qed.

Lemma v1_hash_item pf x kl data v h it :
  hash32 (p_hash pf) -> bytes data -> zlen data < 65535 ->
  slice data (metadata_size (tmeta v) + foff (tmeta v) 0) 32 = Some h ->
  tx_getItem pf x kl (1 :: data) (TV1 v) 0 = Ret it ->
  it = mkItem (str "Txn hash") (VPaged (ST.cep57 (p_hash pf h) h)).
Proof.
  intros Hh B L SD H.
  assert (W : wf (ctx_of pf x false kl data (zlen data))) by (apply wf_ctx; auto; lia).
  unfold tx_getItem in H. pose proof (zlen_nonneg data). rewrite zlen_cons, u16_small in H by lia.
  replace (1 + zlen data - 1) with (zlen data) in H by lia. set (e := ctx_of pf x false kl data (zlen data)) in *.
  cbn [getItem] in H. unfold getItemTxV1 in H.
  destruct (0 <? numItems v) eqn:N; [|discriminate].
  rewrite step_check in H by reflexivity. rewrite step_ask in H. change (0 =? 0) with true in H. cbv iota zeta in H.
  pose proof (slice_bounds _ _ _ _ SD). pose proof (slice_len _ _ _ _ SD) as Z.
  rewrite step_set_off, step_get_off in H by lia.
  rewrite (bind_Ret _ _ _ _ _ _ (parser_printBytes_at h e (metadata_size (tmeta v) + foff (tmeta v) 0) 32 (metadata_size (tmeta v) + foff (tmeta v) 0) W
             ltac:(unfold at_; rewrite Z; exact SD) ltac:(lia) ltac:(lia))) in H.
  injection H as <-. reflexivity.
Qed.

(** the review on screen at an approval *)
Lemma review_state d s tr r : device_ok d -> reach d s tr -> pending s = Some r ->
  exists tr0 bs st, reach d st tr0 /\ pending st = None /\ act d st bs true s NoReply /\
    (exists mid, tr = tr0 ++ (Apdu bs true, st, NoReply) :: mid).
Proof.
  intros D R P. pose proof (reach_opened _ _ _ D R) as O. unfold opened in O. rewrite P in O.
  destruct (O ltac:(discriminate)) as (tr0 & bs & pin & st & mid & -> & Ps & R0 & A & F).
  pose proof (act_opens _ _ _ _ _ _ A Ps P) as X.
  assert (pin = true) as -> by (destruct r; [| | |destruct X as (a & X)]; destruct X as (X & _); exact X).
  exists tr0, bs, st. eauto 6.
Qed.

Lemma tx_sign d s tr t p pre : device_ok d -> reach d s tr -> pending s = Some (RTx t) ->
  app_sign d s = Ret (Signed p pre) ->
  exists k rest, tx_data (bufs s) = k :: rest /\
    match t with
    | TDeploy v => k = 0 /\ slice rest (header_length_deploy (dheader v)) 32 = Some pre
    | TV1 v => k = 1 /\ slice rest (metadata_size (tmeta v) + foff (tmeta v) 0) 32 = Some pre
    end.
Proof.
  intros D R P H. destruct (review_state _ _ _ _ D R P) as (tr0 & bs & st & R0 & Ps & A & _).
  pose proof (act_opens _ _ _ _ _ _ A Ps P) as (_ & _ & _ & _ & _ & T & s1 & Bu & Es & Ex).
  destruct (reach_data _ _ _ D R) as [B L].
  destruct (parse_of_tx _ _ _ _ T L) as (k & rest & Ed & Nr & PP & Kt).
  exists k, rest. split; [exact Ed|].
  assert (X : ccontent (ctx s) = k /\ match t with TDeploy v => obj_type s = 0 /\ obj_header s = dheader v
                                            | TV1 v => obj_v1 s = metadata_size (tmeta v) + foff (tmeta v) 0 end).
  { rewrite Es. unfold tx_parse_effect. rewrite Bu, Ed, Ex. rewrite Ed in PP. rewrite PP. destruct t; split; try reflexivity; split; reflexivity. }
  destruct X as [Ck Ob]. unfold app_sign in H. rewrite Ed, Ck in H. destruct t as [v|v].
  - destruct Ob as [Ot Oh]. subst k. split; [reflexivity|]. change (0 =? content_Deploy) with true in H. rewrite Ot in H. 
    change (0 =? type_Transaction) with true in H. cbv zeta in H. cbn [andb orb] in H.
    unfold sign_preimage in H. rewrite Ck, Ot, Oh in H. change (0 =? content_Deploy) with true in H.
    change ((0 =? type_WasmDeploy) || (0 =? type_Transaction)) with true in H. cbv iota zeta in H.
    destruct (slice rest _ 32) as [b|] eqn:Sl; [|discriminate]. injection H as _ ->. reflexivity.
  - subst k. split; [reflexivity|]. change (1 =? content_Deploy) with false in H. change (1 =? content_TransactionV1) with true in H.
    cbv zeta in H. cbn [andb orb] in H. unfold sign_preimage in H. rewrite Ck, Ob in H. change (1 =? content_Deploy) with false in H. cbv iota zeta in H.
    destruct (slice rest _ 32) as [b|] eqn:Sl; [|discriminate]. injection H as _ ->. reflexivity.
Qed.

Lemma signed_hash_shown d s tr1 e st p pre tr2 t kl it : device_ok d ->
  reach d s (tr1 ++ (e, st, Signed p pre) :: tr2) -> pending st = Some (RTx t) ->
  review_item d st (RTx t) kl 0 = Ret it ->
  zlen pre = 32 /\ it = mkItem (S.text "Txn hash") (VPaged (ST.cep57 (p_hash (plat d) pre) pre)).
Proof.
  intros D R P H. destruct (reach_at _ _ _ _ _ _ _ R) as (R1 & _ & st' & E & _).
  pose proof (reach_buf _ _ _ D R1) as B.
  destruct (signed_step _ _ _ _ _ _ D B E) as (-> & _ & Sg & _).
  destruct (tx_sign _ _ _ _ _ _ D R1 P Sg) as (k & rest & Ed & X).
  destruct (review_state _ _ _ _ D R1 P) as (tr0 & bs & st0 & R0 & Ps & A & _).
  pose proof (act_opens _ _ _ _ _ _ A Ps P) as (_ & _ & _ & _ & _ & T & _).
  destruct (reach_data _ _ _ D R1) as [Bd L]. rewrite Ed in *. 
  assert (Br : bytes rest) by (inversion Bd; assumption).
  assert (Lr : zlen rest < 65535) by (rewrite zlen_cons in L; lia).
  cbn [review_item] in H. rewrite Ed in H. destruct t as [v|v]; destruct X as [-> Sl].
  - split; [exact (slice_len _ _ _ _ Sl)|].
    rewrite (hash_item _ _ _ _ _ pre (dev_hash d D) Br Lr T Sl) in H. injection H as <-. reflexivity.
  - split; [exact (slice_len _ _ _ _ Sl)|]. eapply v1_hash_item; eauto. apply D.
Qed.
Lemma deploy_hash_shown d s tr1 e st p pre tr2 v kl : device_ok d ->
  reach d s (tr1 ++ (e, st, Signed p pre) :: tr2) -> pending st = Some (RTx (TDeploy v)) ->
  review_item d st (RTx (TDeploy v)) kl 0 = Ret (mkItem (S.text "Txn hash") (VPaged (ST.cep57 (p_hash (plat d) pre) pre))).
Proof.
  intros D R P. destruct (reach_at _ _ _ _ _ _ _ R) as (R1 & _ & st' & E & _).
  pose proof (reach_buf _ _ _ D R1) as B.
  destruct (signed_step _ _ _ _ _ _ D B E) as (-> & _ & Sg & _).
  destruct (tx_sign _ _ _ _ _ _ D R1 P Sg) as (k & rest & Ed & -> & Sl).
  destruct (review_state _ _ _ _ D R1 P) as (tr0 & bs & st0 & R0 & Ps & A & _).
  pose proof (act_opens _ _ _ _ _ _ A Ps P) as (_ & _ & _ & _ & _ & T & _).
  destruct (reach_data _ _ _ D R1) as [Bd L]. rewrite Ed in *.
  assert (Br : bytes rest) by (inversion Bd; assumption).
  assert (Lr : zlen rest < 65535) by (rewrite zlen_cons in L; lia).
  cbn [review_item]. rewrite Ed. exact (hash_item _ _ _ _ _ pre (dev_hash d D) Br Lr T Sl).
Qed.

(** * Messages *)
Lemma message_prefix d s tr : device_ok d -> reach d s tr -> pending s = Some RMsg ->
  exists rest, tx_data (bufs s) = S.text "Casper Message:" ++ [10] ++ rest.
Proof.
  intros D R P. destruct (review_state _ _ _ _ D R P) as (tr0 & bs & st & R0 & Ps & A & _).
  pose proof (act_opens _ _ _ _ _ _ A Ps P) as (_ & _ & _ & _ & T & _).
  unfold parser_parse_message in T. destruct (u16 (zlen (tx_data (bufs s))) =? 0); [discriminate|].
  destruct (zlen (tx_data (bufs s)) <? zlen messagePrefix); [discriminate|].
  destruct (list_eqb (firstn (List.length messagePrefix) (tx_data (bufs s))) messagePrefix) eqn:E; [|discriminate].
  apply list_eqb_eq in E. exists (skipn (List.length messagePrefix) (tx_data (bufs s))).
  rewrite <- (firstn_skipn (List.length messagePrefix) (tx_data (bufs s))) at 1. rewrite E. unfold messagePrefix. rewrite <- app_assoc. reflexivity.
Qed.

(** the message item is the hash of the whole data *)
Lemma message_item d s tr kl : device_ok d -> reach d s tr -> pending s = Some RMsg ->
  review_item d s RMsg kl 0 = Ret (mkItem (S.text "Msg hash") (VPaged (ST.hex_lower (p_hash (plat d) (tx_data (bufs s)))))).
Proof.
  intros D R P. destruct (review_state _ _ _ _ D R P) as (tr0 & bs & st & R0 & Ps & A & _).
  pose proof (act_opens _ _ _ _ _ _ A Ps P) as (_ & _ & _ & _ & T & s1 & Bu & Es & _).
  destruct (msg_ctx d s s1 D (reach_buf _ _ _ D R) Bu Es T) as (C & _).
  destruct (reach_data _ _ _ D R) as [Bd L]. pose proof (zlen_nonneg (tx_data (bufs s))).
  cbn [review_item]. rewrite C. unfold parser_getMessageItem. change (0 =? 0) with true. cbv iota. rewrite u16_small by lia.
  unfold slice. replace (_ && _) with true by lia. rewrite skipn_O. unfold zlen. rewrite Nat2Z.id, firstn_all.
  rewrite hexstr_lower by apply (dev_hash d D). reflexivity.
Qed.

(** submissions of transactions in a history all start with a zero byte (deploys) *)
Definition is_submission (bs : list Z) : bool := SA.last_chunk bs && (SA.ins bs =? 2).
Definition deploys_only (tr : list entry) : Prop :=
  forall tr0 bs st rp tr', tr = tr0 ++ (Apdu bs true, st, rp) :: tr' -> pending st = None -> is_submission bs = true ->
    nth 0 (tx_data (bufs st) ++ SA.payload bs) 0 = 0.

Lemma effect_content d s : ccontent (ctx (tx_parse_effect d s)) =
  match tx_data (bufs s) with [] => ccontent (ctx s) | k :: _ => k end.
Proof.
  unfold tx_parse_effect. destruct (tx_data (bufs s)) as [|k rest]; [reflexivity|].
  repeat match goal with |- context [match ?x with _ => _ end] => destruct x; cbv zeta end; reflexivity.
Qed.
Lemma msg_content s : ccontent (ctx (tx_parse_message_effect s)) = ccontent (ctx s).
Proof. unfold tx_parse_message_effect. destruct (tx_data (bufs s)); reflexivity. Qed.
Lemma wasm_content d s : ccontent (ctx (tx_parse_wasm_effect d s)) = ccontent (ctx s).
Proof. unfold tx_parse_wasm_effect. destruct (tx_data (bufs s)); reflexivity. Qed.
Lemma wapp_content d bs s s1 : wapp d bs s s1 -> ccontent (ctx s1) = ccontent (ctx s).
Proof. intros [b n _ _|b n h _ _ _ _]; [reflexivity|]. cbn [ctx set_full]. rewrite wasm_content. reflexivity. Qed.
Lemma wpar_content d s s1 : wpar d s s1 -> ccontent (ctx s1) = ccontent (ctx s).
Proof. intros [_|h _ _]; [reflexivity|]. rewrite wasm_content. reflexivity. Qed.

Lemma content_zero d s tr : device_ok d -> reach d s tr -> deploys_only tr -> ccontent (ctx s) = 0.
Proof.
  intros D R. pattern s, tr. revert s tr R. apply (reach_ind d).
  - reflexivity.
  - intros s tr ev s' rp R IH Kev H DO.
    assert (DO' : deploys_only tr).
    { intros tr0 bs st rp0 tr' E. apply (DO tr0 bs st rp0 (tr' ++ [(ev, s, rp)])). rewrite E, <- app_assoc. reflexivity. }
    specialize (IH DO'). pose proof (reach_buf _ _ _ D R) as B.
    destruct (step_other _ _ _ _ _ H) as [(bs & pin & -> & P & A)|[(x & -> & P & -> & ->)|[(P & -> & _)|[(P & -> & _)|(r & P & -> & _)]]]]; auto.
    pose proof (kind_seen bs pin _ eq_refl) as KS.
    assert (SB : kind_of bs pin = KChunk true -> SA.ins bs = 2 -> forall b, buf_append (ram_size d) (flash_size d) (bufs s) (data_of bs) = (b, zlen (data_of bs)) ->
       match tx_data b with [] => ccontent (ctx s) | k :: _ => k end = 0).
    { intros Kk In b Ab. rewrite Kk in KS. destruct KS as (-> & _ & _ & _ & KL).
      pose proof (DO tr bs s rp [] eq_refl P) as X. unfold is_submission in X. rewrite KL, In in X. specialize (X eq_refl).
      apply append_ok in Ab; auto. destruct Ab as (_ & [[_ E]|(Z0 & Zp & _)]); [|lia]. rewrite E.
      change (data_of bs) with (SA.payload bs). destruct (tx_data (bufs s) ++ SA.payload bs); [exact IH|exact X]. }
    acts A; auto; try (specialize (SB K In _ A)).
    + cbn [ctx set_pending]. rewrite effect_content. exact SB.
    + rewrite effect_content. exact SB.
    + cbn [ctx set_pending]. rewrite msg_content. exact IH.
    + rewrite msg_content. exact IH.
    + cbn [ctx set_init]. rewrite wasm_content. exact IH.
    + rewrite (wapp_content _ _ _ _ W). exact IH.
    + rewrite wasm_content. cbn [ctx set_init]. rewrite (wapp_content _ _ _ _ W). exact IH.
    + rewrite (wpar_content _ _ _ Wp). cbn [ctx set_init]. rewrite (wapp_content _ _ _ _ W). exact IH.
    + cbn [ctx set_pending]. rewrite (wpar_content _ _ _ Wp). cbn [ctx set_init]. rewrite (wapp_content _ _ _ _ W). exact IH.
Qed.

Lemma message_signed d s tr1 e st p pre tr2 : device_ok d ->
  reach d s (tr1 ++ (e, st, Signed p pre) :: tr2) -> pending st = Some RMsg -> deploys_only tr1 ->
  pre = tx_data (bufs st) /\ (no_wasm_chunks tr1 -> pre = sent tr1) /\
  (exists rest, pre = S.text "Casper Message:" ++ [10] ++ rest) /\
  forall kl, review_item d st RMsg kl 0 = Ret (mkItem (S.text "Msg hash") (VPaged (ST.hex_lower (p_hash (plat d) pre)))).
Proof.
  intros D R P DO. destruct (reach_at _ _ _ _ _ _ _ R) as (R1 & _ & st' & E & _).
  pose proof (reach_buf _ _ _ D R1) as B. destruct (signed_step _ _ _ _ _ _ D B E) as (-> & _ & Sg & _).
  destruct (review_state _ _ _ _ D R1 P) as (tr0 & bs & st0 & R0 & Ps & A & _).
  pose proof (act_opens _ _ _ _ _ _ A Ps P) as (_ & _ & _ & _ & T & s1 & Bu & Es & _).
  destruct (msg_ctx d st s1 D B Bu Es T) as (_ & Ot & _). pose proof (content_zero _ _ _ D R1 DO) as C0.
  assert (Ep : pre = tx_data (bufs st)).
  { unfold app_sign in Sg. rewrite C0, Ot in Sg. unfold sign_preimage in Sg. rewrite C0, Ot in Sg.
    change (0 =? content_Deploy) with true in Sg. change (type_Message =? type_Transaction) with false in Sg.
    change (0 =? content_TransactionV1) with false in Sg. change (type_Message =? type_WasmDeploy) with false in Sg.
    change (type_Message =? type_Message) with true in Sg. cbn [andb orb] in Sg. cbv iota zeta in Sg. injection Sg as _ <-. reflexivity. }
  split; [exact Ep|]. split; [intros NW; rewrite Ep; apply (reach_sent _ _ _ D R1 NW)|].
  rewrite Ep. split; [eapply message_prefix; eauto | intros kl; eapply message_item; eauto].
Qed.

(** * Raw-WASM deploys *)
(** histories in which the only signing commands are those of raw-WASM deploys
    and every initial chunk was accepted *)
Definition wasm_only (tr : list entry) : Prop :=
  Forall (fun x => seen_with (fun bs => SA.signing bs && negb (SA.ins bs =? 4)) x = false) tr /\
  Forall (fun x => seen_with SA.initial x = true -> snd x = Status [] SA.ok) tr.

(** the context refers to a prefix of the data *)
Definition ctx_prefix (s : app) : Prop :=
  cbuf (ctx s) = Some (in_ram (bufs s), 0) /\ 0 < clen (ctx s) <= zlen (tx_data (bufs s)) /\ obj_type s = type_WasmDeploy /\
  pubkeytype (obj_header s) = nth 0 (tx_data (bufs s)) 0.
Definition wasm_inv (s : app) : Prop :=
  ccontent (ctx s) = 0 /\ cobj_v1 (ctx s) = false /\
  (tx_bufferFull s = true -> tx_initialized s = true -> in_ram (bufs s) = false /\ ctx_prefix s) /\
  (pending s = Some RWasm -> ctx_prefix s).

Lemma ctx_prefix_data d s : device_ok d -> buf_ok d (bufs s) -> ctx_prefix s ->
  ctx_data (bufs s) (ctx s) = Some (firstn (Z.to_nat (clen (ctx s))) (tx_data (bufs s))).
Proof.
  intros D [B1 B2 B3 B4 B5] (E & L & _ & _). unfold ctx_data. rewrite E. unfold tx_data in *. destruct D as [_ D1 D2 D3].
  destruct (in_ram (bufs s)).
  - unfold slice. replace (_ && _) with true by (unfold zlen in *; rewrite firstn_length in L; lia).
    rewrite skipn_O, firstn_firstn. f_equal. f_equal. unfold zlen in *. rewrite firstn_length in L. lia.
  - unfold slice. replace (_ && _) with true by (unfold zlen in *; rewrite firstn_length in L; lia).
    rewrite skipn_O, firstn_firstn. f_equal. f_equal. unfold zlen in *. rewrite firstn_length in L. lia.
Qed.

Lemma append_in_flash d b bs b' n : buf_append (ram_size d) (flash_size d) b bs = (b', n) ->
  (in_ram b = false \/ n <> zlen bs) -> in_ram b' = false.
Proof.
  intros H C.
  assert (FA : forall c, in_ram (fst (flash_append (flash_size d) c bs)) = in_ram c) by (intros c; unfold flash_append; destruct (_ <=? _); reflexivity).
  unfold buf_append in H. destruct (in_ram b) eqn:I.
  - destruct (rpos b + zlen bs <=? ram_size d).
    + injection H as <- <-. destruct C; [discriminate|lia].
    + set (b2 := if 0 <? rpos b then _ else _) in H. destruct (flash_append (flash_size d) b2 bs) as [b3 m]. injection H as <- <-. reflexivity.
  - pose proof (FA b) as X. rewrite H in X. cbn [fst] in X. congruence.
Qed.

Lemma wasm_key d s h : tx_parse_wasm d s = Ret h -> pubkeytype h = nth 0 (tx_data (bufs s)) 0.
Proof.
  unfold tx_parse_wasm, parser_parse_wasm. destruct (u16 (zlen (tx_data (bufs s))) =? 0); [discriminate|]. unfold readHeader_wasm.
  set (e := ctx_of _ _ _ _ _ _). intros H.
  destruct (readHeader_wasm e 0) as [r o'] eqn:E; unfold readHeader_wasm in E.
  change (fst _) with (fst (readHeader_wasm e 0)) in H. unfold readHeader_wasm in H. rewrite E in H. cbn [fst] in H. subst r.
  pinv. unfold read_header_counts in *. pinv.
  match goal with X : rd _ _ = Some _ |- _ => rename X into Hr end.
  match goal with X : match ?r with inl _ => _ | inr _ => _ end e _ = _ |- _ => destruct r as [?|x]; [discriminate|]; destruct (_ && _); [|discriminate]; injection X as <- _ end.
  cbn [pubkeytype]. change (mem e) with (tx_data (bufs s)) in Hr. unfold rd in Hr. destruct (_ && _); [|discriminate]. symmetry. apply nth_error_nth. exact Hr.
Qed.

Lemma wasm_effect_prefix d s h : device_ok d -> buf_ok d (bufs s) -> tx_parse_wasm d s = Ret h ->
  ctx_prefix (tx_parse_wasm_effect d s) /\ cobj_v1 (ctx (tx_parse_wasm_effect d s)) = false.
Proof.
  intros D B T. pose proof (tx_data_len _ _ B D) as L. pose proof (zlen_nonneg (tx_data (bufs s))). destruct D as [_ D1 D2 D3].
  unfold tx_parse_wasm_effect. rewrite T. destruct (tx_data (bufs s)) as [|k r] eqn:E.
  - unfold tx_parse_wasm in T. rewrite E in T. discriminate.
  - split; [|reflexivity]. unfold ctx_prefix, here. cbn [ctx set_deploy set_ctx cbuf clen bufs obj_type]. rewrite E.
    pose proof (zlen_nonneg r). rewrite zlen_cons in *.
    split; [reflexivity|]. split; [rewrite u16_small by lia; lia|]. split; [reflexivity|].
    cbn [obj_header]. rewrite <- E. exact (wasm_key _ _ _ T).
Qed.
Lemma wasm_effect_obj d s : cobj_v1 (ctx s) = false -> cobj_v1 (ctx (tx_parse_wasm_effect d s)) = false.
Proof. intros H. unfold tx_parse_wasm_effect. destruct (tx_data (bufs s)); [exact H|reflexivity]. Qed.

Lemma wapp_inv d bs s s1 : device_ok d -> buf_ok d (bufs s) -> tx_initialized s = true -> pending s = None -> wasm_inv s -> wapp d bs s s1 -> wasm_inv s1.
Proof.
  intros D B Ei P (C0 & V0 & F0 & _) W. destruct W as [b n A C|b n h A Fu Nz T].
  - split; [exact C0|]. split; [exact V0|]. split; [|cbn; congruence].
    cbn [tx_bufferFull set_bufs tx_initialized]. intros Fu _. destruct (F0 Fu Ei) as (I & E & L & O & Pk).
    assert (I' : in_ram b = false) by (eapply append_in_flash; eauto).
    cbn [bufs set_bufs]. split; [exact I'|]. unfold ctx_prefix. cbn [ctx bufs set_bufs obj_type obj_header].
    split; [rewrite I', <- I; exact E|].
    apply append_ok in A; auto. destruct A as (_ & [[_ X]|(_ & _ & X)]); rewrite X; [|auto].
    rewrite zlen_app. pose proof (zlen_nonneg (data_of bs)). split; [lia|]. split; [exact O|].
    rewrite app_nth1; [exact Pk|]. unfold zlen in L. lia.
  - assert (Bb : buf_ok d b) by (apply append_ok in A; auto; tauto).
    assert (Bs : buf_ok d (bufs (set_bufs b s))) by exact Bb.
    destruct (wasm_effect_prefix d (set_bufs b s) h D Bs T) as [X V].
    destruct (tpw d (set_bufs b s)) as (_ & _ & _ & Bu & _ & _ & Pe).
    split; [cbn [ctx set_full]; rewrite wasm_content; exact C0|]. split; [exact V|].
    split; [|cbn [pending set_full]; rewrite Pe; cbn; congruence].
    intros _ _. split; [cbn [bufs set_full]; rewrite Bu; eapply append_in_flash; eauto|]. exact X.
Qed.

Lemma reach_wasm d s tr : device_ok d -> reach d s tr -> wasm_only tr -> wasm_inv s.
Proof.
  intros D R. pattern s, tr. revert s tr R. apply (reach_ind d).
  - intros _. repeat split; try discriminate; cbn; lia.
  - intros s tr ev s' rp R IH Kev H [W1 W2]. apply Forall_app in W1. destruct W1 as [W1 W1x]. apply Forall_app in W2. destruct W2 as [W2 W2x].
    inversion W1x as [|? ? N4 _]; subst. inversion W2x as [|? ? OKi _]; subst. clear W1x W2x.
    specialize (IH (conj W1 W2)). pose proof (reach_buf _ _ _ D R) as B.
    destruct (step_other _ _ _ _ _ H) as [(bs & pin & -> & P & A)|[(x & -> & P & -> & ->)|[(P & -> & _)|[(P & -> & _)|(r & P & -> & _)]]]]; auto;
    pose proof IH as (C0 & V0 & F0 & P0).
    2:{ split; [exact C0|]. split; [exact V0|]. split; [exact F0|]. cbn. discriminate. }
    pose proof (kind_seen bs pin _ eq_refl) as KS. unfold seen_with, seen in N4, OKi. rewrite P in N4, OKi. cbn [snd] in OKi.
    assert (I4 : (match kind_of bs pin with KChunk _ | KInit | KBad => True | _ => False end) -> SA.ins bs = 4).
    { unfold kind_of. destruct pin; cbn [negb]; [|intros []]. destruct (SA.address bs); [intros []|].
      destruct (SA.signing bs) eqn:Sg; cbn [andb] in N4; [intros _; lia|]. unfold SA.initial, SA.chunk. rewrite Sg. cbn [andb]. intros []. }
    assert (SAME : forall s2, ctx s2 = ctx s -> tx_bufferFull s2 = tx_bufferFull s -> (tx_initialized s2 = true -> tx_initialized s = true) ->
       bufs s2 = bufs s -> obj_type s2 = obj_type s -> obj_header s2 = obj_header s -> pending s2 <> Some RWasm -> wasm_inv s2).
    { intros s2 E1 E2 E3 E4 E5 E5' E6. unfold wasm_inv, ctx_prefix. rewrite E1, E2, E4, E5, E5'. split; [exact C0|]. split; [exact V0|].
      split; [intros F1 F2; apply F0; auto | congruence]. }
    acts A; try (specialize (I4 ltac:(rewrite K; exact I))); try (exfalso; lia);
    rewrite K in KS; cbn beta iota in KS;
    try (destruct KS as (-> & _ & KI & _); rewrite KI in OKi);
    try (apply SAME; try reflexivity; cbn; congruence).
    + specialize (OKi eq_refl). discriminate.
    + specialize (OKi eq_refl). discriminate.
    + rewrite Fi. replace (SA.ins bs =? 4) with true by lia. split; [exact C0|]. split; [exact V0|]. split; [discriminate|cbn; congruence].
    + destruct (tpw d (set_bufs b s)) as (_ & _ & _ & _ & _ & _ & Pe).
      split; [cbn [ctx set_init]; rewrite wasm_content; exact C0|]. split; [cbn [ctx set_init]; apply wasm_effect_obj; exact V0|].
      split; [cbn; discriminate|]. cbn [pending set_init]. rewrite Pe. cbn. congruence.
    + eapply wapp_inv; eauto.
    + pose proof (wapp_inv _ _ _ _ D B Ei P IH W) as (C1 & V1 & _).
      destruct (wapp_frame _ _ _ _ W) as (_ & _ & _ & _ & Pw & _).
      destruct (tpw d (set_init false s1)) as (In1 & _ & _ & _ & _ & _ & Pe).
      split; [rewrite wasm_content; exact C1|]. split; [apply wasm_effect_obj; exact V1|]. split; [rewrite In1; cbn; discriminate|].
      rewrite Pe. cbn. rewrite Pw. congruence.
    + pose proof (wapp_inv _ _ _ _ D B Ei P IH W) as (C1 & V1 & F1 & _).
      destruct (wpar_frame _ _ _ Wp) as (In1 & _ & _ & _ & Pe & _). destruct (wapp_frame _ _ _ _ W) as (_ & _ & _ & _ & Pw & _).
      split; [rewrite (wpar_content _ _ _ Wp); exact C1|]. split; [destruct Wp; [exact V1|apply wasm_effect_obj; exact V1]|].
      split; [rewrite In1; cbn; discriminate|]. rewrite Pe. cbn. rewrite Pw. congruence.
    + pose proof (wapp_inv _ _ _ _ D B Ei P IH W) as (C1 & V1 & F1 & _).
      destruct (wpar_frame _ _ _ Wp) as (In1 & _ & _ & _ & Pe & _). destruct (wapp_frame _ _ _ _ W) as (In0 & _ & _ & _ & Pw & b & n & A & Bu).
      split; [cbn [ctx set_pending]; rewrite (wpar_content _ _ _ Wp); exact C1|].
      split; [cbn [ctx set_pending]; destruct Wp; [exact V1|apply wasm_effect_obj; exact V1]|].
      split; [cbn [tx_initialized set_pending]; rewrite In1; cbn; discriminate|]. intros _.
      destruct Wp as [Fu|h Fu T].
      * destruct (F1 Fu ltac:(congruence)) as (_ & X). exact X.
      * assert (Bs : buf_ok d (bufs (set_init false s1))).
        { cbn [bufs set_init]. rewrite Bu. apply append_ok in A; auto. tauto. }
        destruct (wasm_effect_prefix d (set_init false s1) h D Bs T) as [X _]. exact X.
Qed.

Lemma slice_firstn m n o k b : slice (firstn n m) o k = Some b -> slice m o k = Some b.
Proof.
  intros H. apply slice_Some in H. destruct H as (pre & post & E & Zo & Zk).
  rewrite <- (firstn_skipn n m), E. rewrite <- !app_assoc. subst o k. apply slice_mid.
Qed.

Lemma wasm_signed d s tr1 e st p pre tr2 : device_ok d ->
  reach d s (tr1 ++ (e, st, Signed p pre) :: tr2) -> pending st = Some RWasm -> wasm_only tr1 ->
  exists hdr rest, tx_data (bufs st) = hdr ++ pre ++ rest /\ zlen pre = 32 /\ p_hash (plat d) hdr = pre /\
    (forall kl, review_item d st RWasm kl 0 = Ret (mkItem (S.text "DeployHash") (VPaged (ST.hex_lower pre)))) /\
    (forall kl it, review_item d st RWasm kl 1 = Ret it ->
       exists alg key f24 bh post, tx_data (bufs st) = [alg] ++ key ++ f24 ++ bh ++ post /\
         zlen key = (if alg =? 2 then 33 else 32) /\ zlen f24 = 24 /\ zlen bh = 32 /\
         it = mkItem (S.text "BodyHash") (VPaged (ST.hex_lower bh)) /\
         (zlen ([alg] ++ key ++ f24 ++ bh) <= zlen hdr -> exists more, hdr = [alg] ++ key ++ f24 ++ bh ++ more)).
Proof.
  intros D R P WO. destruct (reach_at _ _ _ _ _ _ _ R) as (R1 & _ & st' & E & _).
  pose proof (reach_buf _ _ _ D R1) as B. destruct (signed_step _ _ _ _ _ _ D B E) as (-> & _ & Sg & _).
  pose proof (reach_wasm _ _ _ D R1 WO) as (C0 & V0 & _ & PR). specialize (PR P).
  pose proof (ctx_prefix_data _ _ D B PR) as CD. destruct PR as (Ec & Lc & Ot & Pk).
  destruct (review_state _ _ _ _ D R1 P) as (tr0 & bs & st0 & R0 & Ps & A & _).
  pose proof (act_opens _ _ _ _ _ _ A Ps P) as (_ & _ & _ & _ & _ & V).
  destruct (reach_data _ _ _ D R1) as [Bd Ld].
  set (data := tx_data (bufs st)) in *. set (m := firstn (Z.to_nat (clen (ctx st))) data) in *. set (h := obj_header st) in *.
  assert (WH : wasm_header d st = h) by (unfold wasm_header; rewrite V0; reflexivity).
  unfold tx_validate_wasm, wasm_run in V. rewrite CD, WH in V. set (en := ctx_of (plat d) (expert_mode st) true 40 m (clen (ctx st))) in *.
  destruct (parser_validate_wasm h en 0) as [r o'] eqn:PV. cbn [fst] in V. subst r.
  unfold parser_validate_wasm in PV. pinv.
  match goal with X : list_eqb _ _ = true |- _ => apply list_eqb_eq in X; rename X into HE end.
  repeat match goal with X : slice (mem en) _ _ = Some _ |- _ => change (mem en) with m in X end.
  match goal with X : slice m 0 _ = Some ?a |- _ => rename X into S1; rename a into hdr end.
  match goal with X : slice m _ 32 = Some ?a |- _ => rename X into S2; rename a into dh end.
  change (hash en) with (p_hash (plat d)) in HE.
  assert (Zd : zlen dh = 32) by exact (slice_len _ _ _ _ S2).
  assert (Bm : bytes m) by (apply bytes_firstn; exact Bd).
  assert (Bh : bytes dh) by exact (slice_bytes _ _ _ _ Bm S2).
  assert (pre = dh) as ->.
  { apply slice_firstn in S2. unfold app_sign in Sg. fold data in Sg. rewrite C0, Ot in Sg. unfold sign_preimage in Sg. rewrite C0, Ot in Sg.
    change (0 =? content_Deploy) with true in Sg. change (type_WasmDeploy =? type_Transaction) with false in Sg.
    change (0 =? content_TransactionV1) with false in Sg. change (type_WasmDeploy =? type_WasmDeploy) with true in Sg.
    cbn [andb orb] in Sg. cbv iota zeta in Sg. fold h in Sg. rewrite S2 in Sg. injection Sg as _ <-. reflexivity. }
  assert (Em : exists rest, m = hdr ++ dh ++ rest).
  { apply slice_Some in S1. destruct S1 as (a & post & E1 & Z1 & Z2). destruct a; [|rewrite zlen_cons in Z1; pose proof (zlen_nonneg a); lia].
    cbn [Datatypes.app] in E1. pose proof S2 as S2'. apply slice_Some in S2'. destruct S2' as (a & post' & E2 & Z3 & Z4).
    assert (X : a = hdr /\ dh ++ post' = post).
    { apply app_inj_len; [rewrite <- E2; exact E1|]. apply zlen_nat. lia. }
    destruct X as [-> <-].
    exists post'. congruence. }
  destruct Em as (rest & Em).
  assert (Edata : data = hdr ++ dh ++ (rest ++ skipn (Z.to_nat (clen (ctx st))) data)).
  { rewrite <- (firstn_skipn (Z.to_nat (clen (ctx st))) data) at 1. fold m. rewrite Em, <- !app_assoc. reflexivity. }
  exists hdr, (rest ++ skipn (Z.to_nat (clen (ctx st))) data). split; [exact Edata|]. split; [exact Zd|]. split; [exact HE|].
  split.
  - intros kl. cbn [review_item]. unfold wasm_run. rewrite CD, WH. fold en. unfold parser_getWasmItem. change (0 =? 0) with true. cbv iota.
    unfold bind, mem_slice. change (mem en) with m. rewrite S2. cbn [fst ret]. rewrite hexstr_lower by exact Bh. reflexivity.
  - intros kl it Hi. cbn [review_item] in Hi. unfold wasm_run in Hi. rewrite CD, WH in Hi. fold en in Hi.
    destruct (parser_getWasmItem h 1 en 0) as [r o1] eqn:PG. cbn [fst] in Hi. subst r.
    unfold parser_getWasmItem in PG. change (1 =? 0) with false in PG. change (1 =? 1) with true in PG. cbv iota in PG. pinv.
    match goal with X : index_headerpart_deploy _ _ _ _ = _ |- _ => apply index_inv in X; destruct X as (q & Eq & Lq & Er) end.
    subst. match goal with X : slice (mem en) _ 32 = Some ?a |- _ => change (mem en) with m in X; rename X into S3; rename a into bh end.
    assert (Bb : bytes bh) by exact (slice_bytes _ _ _ _ Bm S3). rewrite hexstr_lower by exact Bb.
    assert (PL : pubkeyLen h = 1 + (if nth 0 data 0 =? 2 then 33 else 32)) by (unfold pubkeyLen; rewrite Pk; reflexivity).
    rewrite u16_small in S3 by (rewrite PL; destruct (_ =? 2); lia).
    apply slice_firstn in S3. apply slice_Some in S3. destruct S3 as (aa & post & E3 & Z5 & Z6).
    clearbody data. destruct data as [|alg dt] eqn:Edd; [unfold zlen in Lc; cbn in Lc; lia|]. cbn [nth] in PL.
    destruct aa as [|alg' aa]; [rewrite zlen_nil in Z5; rewrite PL in Z5; destruct (alg =? 2); lia|].
    cbn [Datatypes.app] in E3. injection E3 as <- E3. rewrite zlen_cons in Z5.
    set (kl' := if alg =? 2 then 33%nat else 32%nat).
    exists alg, (firstn kl' aa), (skipn kl' aa), bh, post.
    assert (La : List.length aa = (kl' + 24)%nat).
    { unfold zlen in Z5. unfold kl'. rewrite PL in Z5. destruct (alg =? 2); lia. }
    split; [cbn [Datatypes.app]; f_equal; rewrite E3; rewrite (app_assoc (firstn kl' aa)), firstn_skipn; reflexivity|].
    split; [unfold zlen; rewrite firstn_length; unfold kl' in *; destruct (alg =? 2); lia|].
    split; [unfold zlen; rewrite skipn_length; lia|]. split; [exact Z6|]. split; [reflexivity|].
    intros Lh.
    exists (skipn (List.length ([alg] ++ firstn kl' aa ++ skipn kl' aa ++ bh)) hdr).
    rewrite <- (firstn_skipn (List.length ([alg] ++ firstn kl' aa ++ skipn kl' aa ++ bh)) hdr) at 1.
    rewrite !app_assoc. f_equal. rewrite <- !app_assoc.
    assert (F1 : firstn (List.length ([alg] ++ firstn kl' aa ++ skipn kl' aa ++ bh)) (alg :: dt) = [alg] ++ firstn kl' aa ++ skipn kl' aa ++ bh).
    { rewrite E3. replace (alg :: aa ++ bh ++ post) with (([alg] ++ firstn kl' aa ++ skipn kl' aa ++ bh) ++ post).
      - rewrite firstn_app, Nat.sub_diag, firstn_O, app_nil_r, firstn_all. reflexivity.
      - cbn [Datatypes.app]. f_equal. rewrite <- !app_assoc. rewrite (app_assoc (firstn kl' aa)), firstn_skipn. reflexivity. }
    rewrite Edata in F1. rewrite firstn_app in F1.
    replace (List.length ([alg] ++ firstn kl' aa ++ skipn kl' aa ++ bh) - List.length hdr)%nat with 0%nat in F1 by (unfold zlen in Lh; lia).
    rewrite firstn_O, app_nil_r in F1. exact F1.
Qed.
