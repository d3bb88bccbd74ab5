(** What the acceptance of arbitrary bytes as a TransactionV1 guarantees. *)
From Verif Require Import Base Zxlib Crypto Utils RuntimeArg Deploy DeployUI TxV1 TxV1UI Parser BaseFacts Spec SpecText SpecDeploy SpecTx SpecLayout Exec ArgsFacts ReaderFacts TextFacts RangeFacts BindFacts OklFacts BindCases SafeFacts TxInv Demo AppSign.
Import S SX SL.

Lemma content_v1 k e v o : parse_content k e 0 = (Ret (TV1 v), o) -> k = 1 /\ parser_read_transactionV1 e 0 = (Ret v, o).
Proof.
  unfold parse_content, content_Deploy, content_TransactionV1. intros H. pgo; try discriminate.
  match goal with H : TV1 _ = TV1 _ |- _ => injection H as -> end. split; [lia|assumption].
Qed.

(** parser_parse on the bytes of a TransactionV1 *)
Lemma parse_v1 pf x data : zlen data < 65535 -> data <> [] ->
  parser_parse pf x (1 :: data) =
  match fst (parser_read_transactionV1 (ctx_of pf x false 40 data (zlen data)) 0) with
  | Ret v => Ret (TV1 v) | Fail c => Fail c | Undef u => Undef u end.
Proof.
  intros L N. unfold parser_parse. pose proof (zlen_nonneg data). rewrite zlen_cons, u16_small by lia.
  destruct data as [|b data]; [contradiction|]. rewrite zlen_cons in *. pose proof (zlen_nonneg data).
  replace (1 + (1 + zlen data) =? 0) with false by lia. replace (1 + (1 + zlen data) =? 1) with false by lia.
  replace (1 + (1 + zlen data) - 1) with (1 + zlen data) by lia. unfold parse_content, content_Deploy, content_TransactionV1.
  cbn [Z.eqb Pos.eqb]. unfold bind. destruct (parser_read_transactionV1 _ 0) as [[v|c|u] o]; reflexivity.
Qed.
Lemma parse_v1_empty pf x : parser_parse pf x [1] = Fail parser_unexpected_buffer_end. Proof. reflexivity. Qed.

(** C12, C15 *)
Lemma layout_any pf x data v : hash32 (p_hash pf) -> bytes data -> zlen data < 65535 ->
  parser_parse pf x (1 :: data) = Ret v -> exists tt et c, layout data tt et c /\ (tt = 1 -> et = 1).
Proof.
  intros Hh B L H. destruct (list_eq_dec Z.eq_dec data []) as [->|N]; [rewrite parse_v1_empty in H; discriminate|].
  rewrite parse_v1 in H by auto.
  destruct (parser_read_transactionV1 _ 0) as [[w|c|u] o] eqn:R; try discriminate.
  apply v1_inv in R; [|apply wf_ctx; auto; lia]. destruct R as ((top & pay & b & a & t & s & A & _) & C & _). cbn [mem ctx_of] in A.
  exists (kind (ttype (ttarget w))), (entry_point_type w), o. split; [|exact C]. exists top, pay, b, a, t, s. exact A.
Qed.

(** C41 *)
Lemma run_calm d n p q : no_leap d -> run d n p q -> exists l, laid d p l /\ zlen l = n /\ q = after p l.
Proof.
  intros N (l & L & [[E1 E2]|[_ (w & W & [H|(nm & H)])]]); [exists l; auto| |].
  - pose proof (N _ _ H ltac:(unfold word; lia)). lia.
  - destruct H as (pre & post & E & LP). rewrite <- app_assoc in E.
    pose proof (N (len (pre ++ lv nm)) w ltac:(exists (pre ++ lv nm), post; rewrite <- app_assoc; auto) ltac:(unfold word; lia)). lia.
Qed.
Lemma forward_any pf x data v : hash32 (p_hash pf) -> bytes data -> zlen data < 65472 -> no_leap data ->
  parser_parse pf x (1 :: data) = Ret v ->
  exists top pay b a t s tt et c, layout_at data top pay b a t s tt et c /\ forward top pay b a t s c /\
    ((exists l, here data (b + 10) (0 :: le 4 (zlen l)) /\ laid data (b + 15) l /\ a = after (b + 15) l) \/ exists n, here data (b + 10) (1 :: le 4 n)).
Proof.
  intros Hh B L NL H. destruct (list_eq_dec Z.eq_dec data []) as [->|N]; [rewrite parse_v1_empty in H; discriminate|].
  rewrite parse_v1 in H by (auto; lia).
  destruct (parser_read_transactionV1 _ 0) as [[w|c|u] o] eqn:R; try discriminate.
  apply v1_inv in R; [|apply wf_ctx; auto; lia]. destruct R as ((top & pay & b & a & t & s & A & F) & _ & _). cbn [mem ctx_of] in A.
  exists top, pay, b, a, t, s, (kind (ttype (ttarget w))), (entry_point_type w), o. split; [exact A|]. split.
  2:{ destruct A as (_ & _ & _ & _ & _ & (al & sl & tab & _ & D & _) & _). destruct D as [(n & D1 & D2 & D3)|(n & D1 & _)]; [left|right; eauto].
      apply run_calm in D3; [|exact NL]. destruct D3 as (l & L1 & <- & E). exists l. auto. }
  apply F. split; [cbn [blen ctx_of]; lia|exact NL].
Qed.

(** C28 *)
Lemma parse_defined pf x data u : hash32 (p_hash pf) -> bytes data -> zlen data < 65535 -> parser_parse pf x (1 :: data) <> Undef u.
Proof.
  intros Hh B L. destruct (list_eq_dec Z.eq_dec data []) as [->|N]; [rewrite parse_v1_empty; discriminate|].
  rewrite parse_v1 by auto. pose proof (safe_v1 (ctx_of pf x false 40 data (zlen data)) 0) as [_ S]; [apply wf_ctx; auto; lia|unfold in16; lia|].
  destruct (fst _) as [v|c|u'] eqn:E; try discriminate. intros _. exact (S u' eq_refl).
Qed.

(** the hash check of a parsed transaction is defined *)
Lemma slice_here d p bs : here d p bs -> slice d p (zlen bs) = Some bs.
Proof. intros (a & b & -> & L). change (S.len a) with (zlen a) in L. rewrite <- L. apply slice_mid. Qed.

Lemma validate_split e v o o1 : wf e -> parser_read_transactionV1 e 0 = (Ret v, o) ->
  exists top pay dh payload, tbl_at (mem e) 0 top /\ tbl_at (mem e) (first 0 top + 32) pay /\
    tmeta v = meta_of top /\ tpayload_meta v = meta_of pay /\
    metadata_size (tmeta v) + foff (tmeta v) 0 = first 0 top /\
    slice (mem e) (first 0 top) 32 = Some dh /\
    slice (mem e) (first 0 top + 32) (fin (first 0 top + 32) pay - (first 0 top + 32)) = Some payload /\
    validateTxV1 v e o1 = check (list_eqb (hash e payload) dh) parser_context_mismatch e o1.
Proof.
  intros W R. apply v1_inv in R; [|exact W]. destruct R as (_ & _ & top & pay & T & F0 & F1 & Tp & M1 & M2 & Lf).
  assert (B1 : 8 <= first 0 top /\ first 0 top = 8 + 6 * zlen (t_offs top)).
  { unfold first. change (S.len (t_offs top)) with (zlen (t_offs top)). pose proof (zlen_nonneg (t_offs top)). lia. }
  assert (B2 : fin (first 0 top + 32) pay - (first 0 top + 32) = 8 + 6 * zlen (t_offs pay) + t_size pay mod 65536).
  { unfold fin. unfold first at 1. change (S.len (t_offs pay)) with (zlen (t_offs pay)). lia. }
  pose proof (zlen_nonneg (t_offs pay)). rewrite (wf_len e W) in Lf.
  destruct (slice_total (mem e) (first 0 top) 32) as (dh & Sd); [lia|lia|lia|].
  destruct (slice_total (mem e) (first 0 top + 32) (fin (first 0 top + 32) pay - (first 0 top + 32))) as (py & Sp); [lia|lia|lia|].
  exists top, pay, dh, py. split; [exact T|]. split; [exact Tp|]. split; [exact M1|]. split; [exact M2|].
  rewrite M1. rewrite !foff_off, F0. cbn [meta_of metadata_size].
  split; [lia|]. split; [exact Sd|]. split; [exact Sp|].
  unfold validateTxV1. rewrite M1, M2, !foff_off, F0, F1. cbn [meta_of metadata_size fields_size].
  rewrite step_ask. rewrite <- B2.
  replace (8 + 6 * zlen (t_offs top) + 32) with (first 0 top + 32) by lia.
  unfold bind at 1. unfold mem_slice at 1. rewrite Sp.
  replace (8 + 6 * zlen (t_offs top) + 0) with (first 0 top) by lia.
  unfold bind at 1. unfold mem_slice at 1. rewrite Sd. reflexivity.
Qed.

(** C13: the payload, its hash, and the first line of the review *)
Lemma payload_bound pf x data v : hash32 (p_hash pf) -> bytes data -> zlen data < 65535 ->
  tx_parse pf x (1 :: data) = Ret (TV1 v) ->
  exists top pay tab dh payload rest,
    data = tab ++ dh ++ payload ++ rest /\ zlen dh = 32 /\ p_hash pf payload = dh /\
    tab = raw_head (t_n top) (t_offs top) (t_size top) /\ tbl_at data 0 top /\
    tbl_at data (zlen tab + 32) pay /\ zlen payload = fin 0 pay /\
    metadata_size (tmeta v) + foff (tmeta v) 0 = zlen tab /\
    forall kl it, tx_getItem pf x kl (1 :: data) (TV1 v) 0 = Ret it -> it = mkItem (str "Txn hash") (VPaged (ST.cep57 (p_hash pf dh) dh)).
Proof.
  intros Hh B L H. destruct (accept_inv _ _ _ _ _ L H) as (Lp & o1 & o2 & its & o3 & u & PC & VA & It).
  assert (W : wf (ctx_of pf x false 40 data (zlen data))) by (apply wf_ctx; auto; lia).
  set (e := ctx_of pf x false 40 data (zlen data)) in *.
  apply content_v1 in PC. destruct PC as [_ R].
  destruct (validate_split e v o1 o1 W R) as (top & pay & dh & py & T & Tp & M1 & M2 & Ep & Sd & Sp & V).
  rewrite V in VA. unfold check in VA. destruct (list_eqb (hash e py) dh) eqn:E; [|discriminate].
  apply list_eqb_eq in E. change (hash e py) with (p_hash pf py) in E. change (mem e) with data in *.
  pose proof (tb_here _ _ _ T) as (a & b & Ed & La). destruct a as [|z a]; [|pose proof (zlen_nonneg a); change (S.len (z :: a)) with (zlen (z :: a)) in La; rewrite zlen_cons in La; lia].
  cbn [app] in Ed. set (tab := raw_head (t_n top) (t_offs top) (t_size top)) in *.
  assert (Lt : zlen tab = first 0 top) by (unfold tab; rewrite zlen_raw_head; unfold first; change (S.len (t_offs top)) with (zlen (t_offs top)); lia).
  assert (S0 : slice data 0 (first 0 top) = Some tab).
  { rewrite <- Lt. rewrite Ed. apply (slice_mid [] tab b). }
  pose proof (slice_app data 0 (first 0 top) 32 tab dh S0 Sd) as S1.
  pose proof (slice_app data 0 (first 0 top + 32) _ _ py S1 Sp) as S2.
  destruct (slice_0 _ _ _ S2) as (rest & Er).
  pose proof (slice_len _ _ _ _ Sd) as Zd. pose proof (slice_len _ _ _ _ Sp) as Zp.
  exists top, pay, tab, dh, py, rest. split; [rewrite Er, <- !app_assoc; reflexivity|]. split; [exact Zd|]. split; [exact E|].
  split; [reflexivity|]. split; [exact T|]. split; [rewrite Lt; exact Tp|].
  split; [rewrite Zp; unfold fin, first; lia|]. split; [lia|].
  intros kl it G. eapply v1_hash_item; eauto. rewrite Ep. exact Sd.
Qed.

(** a table inside a piece of the bytes *)
Lemma tbl_part a b c t : tbl_at (a ++ b ++ c) (zlen a) t -> first 0 t <= zlen b -> tbl_at b 0 t.
Proof.
  intros [Hp Hn Ho Hs Hm Hl] L. constructor; auto. destruct Hp as (p & q & E & Lp). change (S.len p) with (zlen p) in Lp.
  destruct (app_inj_len _ _ _ _ E (zlen_nat _ _ (eq_sym Lp))) as [<- E2].
  assert (Lh : zlen (raw_head (t_n t) (t_offs t) (t_size t)) <= zlen b).
  { rewrite zlen_raw_head. unfold first in L. change (S.len (t_offs t)) with (zlen (t_offs t)) in L. lia. }
  set (h := raw_head _ _ _) in *. destruct (slice_total b 0 (zlen h)) as (x & Sx); [lia|apply zlen_nonneg|lia|].
  pose proof (slice_len _ _ _ _ Sx) as Zx. destruct (slice_0 _ _ _ Sx) as (r & Eb). rewrite Eb, <- app_assoc in E2.
  destruct (app_inj_len _ _ _ _ E2 (zlen_nat _ _ Zx)) as [<- _]. exists [], r. split; [exact Eb|reflexivity].
Qed.

(** two accepted transactions with the same first line have the same payload,
    or the hash function has a collision *)
Lemma same_payload pf x1 x2 d1 d2 v1 v2 kl1 kl2 it :
  hash32 (p_hash pf) -> bytes d1 -> bytes d2 -> zlen d1 < 65535 -> zlen d2 < 65535 ->
  tx_parse pf x1 (1 :: d1) = Ret (TV1 v1) -> tx_parse pf x2 (1 :: d2) = Ret (TV1 v2) ->
  tx_getItem pf x1 kl1 (1 :: d1) (TV1 v1) 0 = Ret it -> tx_getItem pf x2 kl2 (1 :: d2) (TV1 v2) 0 = Ret it ->
  (exists t1 t2 dh payload r1 r2, d1 = t1 ++ dh ++ payload ++ r1 /\ d2 = t2 ++ dh ++ payload ++ r2 /\ zlen dh = 32 /\ p_hash pf payload = dh /\
     (exists pay, tbl_at payload 0 pay /\ zlen payload = fin 0 pay)) \/
  (exists a b, (exists p q, d1 = p ++ a ++ q) /\ (exists p q, d2 = p ++ b ++ q) /\ a <> b /\ p_hash pf a = p_hash pf b).
Proof.
  intros Hh B1 B2 L1 L2 H1 H2 G1 G2.
  destruct (payload_bound _ _ _ _ Hh B1 L1 H1) as (tp1 & py1 & t1 & dh1 & p1 & r1 & E1 & Z1 & P1 & _ & _ & T1 & F1 & _ & S1).
  destruct (payload_bound _ _ _ _ Hh B2 L2 H2) as (tp2 & py2 & t2 & dh2 & p2 & r2 & E2 & Z2 & P2 & _ & _ & _ & _ & _ & S2).
  apply S1 in G1. apply S2 in G2. rewrite G1 in G2. injection G2 as C.
  assert (D : dh1 = dh2).
  { eapply cep57_inj; [| |exact C]; [rewrite <- P1|rewrite <- P2]; apply Hh. }
  destruct (list_eq_dec Z.eq_dec p1 p2) as [<-|N].
  - left. exists t1, t2, dh1, p1, r1, r2. rewrite D at 2. repeat (split; [assumption|]). exists py1. split; [|exact F1].
    apply (tbl_part (t1 ++ dh1) p1 r1); [rewrite zlen_app, Z1, <- app_assoc, <- E1; exact T1|].
    rewrite F1. unfold fin. lia.
  - right. exists p1, p2. split; [exists (t1 ++ dh1), r1; rewrite E1, <- !app_assoc; reflexivity|].
    split; [exists (t2 ++ dh2), r2; rewrite E2, <- !app_assoc; reflexivity|]. split; [exact N|congruence].
Qed.

(** * Displaying *)
Lemma kl_index_v1 v p : klfree (index_headerpart_txnV1 v p). Proof. unfold index_headerpart_txnV1; kl. Qed.
Lemma kl_text o n : klfree (text_at o n). Proof. unfold text_at; kl. Qed.
#[export] Hint Resolve kl_index_v1 kl_text : kl.
Lemma kl_show_text k o n : klfree (show_text k o n). Proof. unfold show_text; kl. Qed.
Lemma kl_decimal o : klfree (show_hash_decimal o). Proof. unfold show_hash_decimal; kl. Qed.
Lemma kl_args_hash v : klfree (show_custom_args_hash v). Proof. unfold show_custom_args_hash; kl. Qed.
#[export] Hint Resolve kl_show_text kl_decimal kl_args_hash : kl.
Lemma kl_custom v i : klfree (getItem_Custom v i). Proof. unfold getItem_Custom; kl. Qed.
Lemma kl_transfer_v1 n i : klfree (getItem_txV1_Transfer n i). Proof. unfold getItem_txV1_Transfer; kl. Qed.
Lemma kl_pay v : klfree (payment_value v). Proof. unfold payment_value; kl. Qed.
Lemma kl_gas v : klfree (gas_value v). Proof. unfold gas_value; kl. Qed.
Lemma kl_ign k p : klfree p -> klfree (ignoring_errors k p). Proof. intros; unfold ignoring_errors; kl. Qed.
#[export] Hint Resolve kl_custom kl_transfer_v1 kl_pay kl_gas kl_ign : kl.
Lemma kl_pricing v i : klfree (getItem_pricing_mode v i). Proof. unfold getItem_pricing_mode; kl. Qed.
Lemma kl_exists s a n : klfree (exists_arg s a n). Proof. unfold exists_arg; kl. Qed.
Lemma kl_first k o : klfree (show_first_byte k o). Proof. unfold show_first_byte; kl. Qed.
Lemma kl_vhash k o n : klfree (show_value_hash k o n). Proof. unfold show_value_hash; kl. Qed.
#[export] Hint Resolve kl_pricing kl_exists kl_first kl_vhash : kl.
Lemma kl_args_v1 v i : klfree (getItem_args v i).
Proof.
  unfold getItem_args, getItem_AddBid, getItem_WithdrawBid, getItem_Delegate, getItem_Redelegate, getItem_ActivateBid,
    getItem_ChangePublicKey, getItem_AddReservations, getItem_CancelReservations, getItem_Burn. kl.
Qed.
#[export] Hint Resolve kl_args_v1 : kl.
Lemma kl_v1 v i : klfree (getItemTxV1 v i). Proof. unfold getItemTxV1; kl. Qed.

Lemma v1_any_off v idx e o o' : fst (getItemTxV1 v idx e o) = fst (getItemTxV1 v idx e o').
Proof.
  unfold getItemTxV1, getItem_pricing_mode, ignoring_errors, payment_value, gas_value, index_headerpart_txnV1, getItem_args.
  cbv [bind ask check ret set_off fst try].
  repeat match goal with |- context [if ?b then _ else _] => destruct b end; try reflexivity.
Qed.

Lemma tx_item_v1 pf x kl data v idx o : zlen data < 65535 ->
  tx_getItem pf x kl (1 :: data) (TV1 v) idx = fst (getItemTxV1 v idx (ctx_of pf x false 40 data (zlen data)) o).
Proof.
  intros L. unfold tx_getItem. pose proof (zlen_nonneg data). rewrite zlen_cons, u16_small by lia.
  replace (1 + zlen data - 1) with (zlen data) by lia. cbn [getItem].
  pose proof (kl_v1 v idx (ctx_of pf x false 40 data (zlen data)) kl 0) as K. 
  change (with_kl (ctx_of pf x false 40 data (zlen data)) kl) with (ctx_of pf x false kl data (zlen data)) in K. rewrite K.
  apply v1_any_off.
Qed.

(** C39, C42 *)
Lemma v1_shown_all pf x kl data v : zlen data < 65535 ->
  tx_parse pf x (1 :: data) = Ret (TV1 v) ->
  0 <= getNumItems x (TV1 v) < 256 /\
  forall idx,
    (0 <= idx < getNumItems x (TV1 v) -> exists it, tx_getItem pf x kl (1 :: data) (TV1 v) idx = Ret it) /\
    (getNumItems x (TV1 v) <= idx -> tx_getItem pf x kl (1 :: data) (TV1 v) idx = Fail parser_no_data).
Proof.
  intros L H. destruct (accept_inv _ _ _ _ _ L H) as (Lp & o1 & o2 & its & o3 & u & PC & VA & It).
  set (e := ctx_of pf x false 40 data (zlen data)) in *. cbn [getNumItems] in *. split.
  - apply content_v1 in PC. destruct PC as [_ R]. unfold parser_read_transactionV1 in R.
    repeat (let b := fresh in let o := fresh in let Q := fresh in bx R b o Q; clear Q).
    match type of R with (match ?q with _ => _ end) _ _ = _ => destruct q as [[a [t nt]] [[[ep p1] p2] ne]] end.
    apply ret_inv in R. destruct R as [-> _]. cbn [numItems]. unfold u8. lia.
  - intros idx. split; intros Hi.
    + destruct (items_nth _ _ _ _ _ _ _ It) as [_ K]. destruct (K (Z.to_nat idx)) as (it & p1 & p2 & _ & G); [lia|].
      rewrite Z.add_0_l, Z2Nat.id in G by lia. exists it. rewrite (tx_item_v1 _ _ _ _ _ _ p1 L). fold e. cbn [getItem] in G. rewrite G. reflexivity.
    + rewrite (tx_item_v1 _ _ _ _ _ _ 0 L). unfold getItemTxV1, bind at 1, check. destruct (idx <? numItems v) eqn:E; [lia|reflexivity].
Qed.

(** C30: an access outside the buffer happens only while an item is computed *)
Lemma items_undef t e u : forall n i o, fst (items_from t i n e o) = Undef u ->
  exists k o1, 0 <= k < Z.of_nat n /\ fst (getItem t (i + k) e o1) = Undef u.
Proof.
  induction n as [|n IH]; intros i o H; cbn [items_from] in H; [discriminate|].
  unfold bind in H. destruct (getItem t i e o) as [[it|c|u'] o1] eqn:G; try discriminate.
  - destruct (items_from t (i + 1) n e o1) as [[r|c|u'] o2] eqn:R; try discriminate. cbn [fst] in H.
    destruct (IH (i + 1) o1) as (k & o3 & Hk & Gk); [rewrite R; exact H|]. exists (k + 1), o3. split; [lia|].
    replace (i + (k + 1)) with (i + 1 + k) by lia. exact Gk.
  - exists 0, o. split; [lia|]. rewrite Z.add_0_r, G. cbn [fst] in *. congruence.
Qed.
Lemma undef_from_item pf x data u : hash32 (p_hash pf) -> bytes data -> zlen data < 65535 ->
  tx_parse pf x (1 :: data) = Undef u ->
  exists v idx, parser_parse pf x (1 :: data) = Ret (TV1 v) /\ 0 <= idx < getNumItems x (TV1 v) /\
    forall kl, tx_getItem pf x kl (1 :: data) (TV1 v) idx = Undef u.
Proof.
  intros Hh B L H. destruct (list_eq_dec Z.eq_dec data []) as [->|N]; [discriminate H|].
  pose proof (fun u => parse_defined pf x data u Hh B L) as D. rewrite parse_v1 in D |- * by auto.
  assert (W : wf (ctx_of pf x false 40 data (zlen data))) by (apply wf_ctx; auto; lia).
  unfold tx_parse in H. pose proof (zlen_nonneg data). rewrite zlen_cons, u16_small in H by lia.
  destruct data as [|b data']; [contradiction|]. rewrite zlen_cons in H. pose proof (zlen_nonneg data').
  replace (1 + (1 + zlen data') =? 0) with false in H by lia. replace (1 + (1 + zlen data') =? 1) with false in H by lia.
  replace (1 + (1 + zlen data') - 1) with (zlen (b :: data')) in H by (rewrite zlen_cons; lia). set (data := b :: data') in *.
  set (e := ctx_of pf x false 40 data (zlen data)) in *.
  unfold parse_content, content_Deploy, content_TransactionV1 in H. cbn [Z.eqb Pos.eqb] in H.
  unfold bind at 1 2 in H. destruct (parser_read_transactionV1 e 0) as [[v|c|u'] o] eqn:R; cbn [fst ret] in H, D |- *; try discriminate.
  2:{ exfalso. apply (D u'). reflexivity. }
  exists v. destruct (validate_split e v o o W R) as (top & pay & dh & py & _ & _ & _ & _ & _ & _ & _ & V).
  unfold parser_validate in H. unfold bind at 1 2 in H. rewrite V in H. unfold check in H. destruct (list_eqb _ _); [|discriminate].
  unfold ret in H at 1. cbv beta iota in H. rewrite step_ask in H. cbn [getNumItems] in *. change (expert e) with x in H.
  destruct (items_from (TV1 v) 0 (Z.to_nat (numItems v)) e o) as [[r|c|u'] o2] eqn:It; try discriminate. cbn [fst] in H.
  destruct (items_undef (TV1 v) e u (Z.to_nat (numItems v)) 0 o) as (k & o1 & Hk & Gk); [rewrite It; cbn [fst]; congruence|].
  exists k. split; [reflexivity|]. split; [lia|]. intros kl. rewrite (tx_item_v1 _ _ _ _ _ _ o1 L). fold e. exact Gk.
Qed.
