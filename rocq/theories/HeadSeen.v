(** The first lines of every accepted TransactionV1, whatever its chain name. *)
From Verif Require Import Base Zxlib Crypto Utils RuntimeArg Deploy DeployUI TxV1 TxV1UI Parser BaseFacts Spec SpecText SpecDeploy SpecTx SpecLayout SpecRaw SpecForm SpecShow SpecHead SpecWrap Exec ArgsFacts ReaderFacts TextFacts Demo Shows DeployArgs SessionFacts ReviewFacts TxFacts TxBody TxShow TxReview RangeFacts BindFacts BindCases SafeFacts TxInv RawFacts TxAccept FwdFacts FormFacts FormUnique FormReview FormArgs FormRun FormAccept App SpecApp AppFacts AppHist AppClaims AppSign FormSign DeploySign OklFacts HeadFacts HeadClear FormShow FormSeen.
Import S ST SD SX SL SR SF SW SH SG.

Definition chain_fits (n : list Z) : Prop := zlen n mod 256 < 100 \/ zlen n mod 256 = 100 /\ In 0 (cut_chain n).
Lemma chain_fits_shown n : chain_fits n -> chain_shown false n.
Proof. intros C. split; [exact C|discriminate]. Qed.

Lemma head_any e k u i l o : form_at e k u -> chain_fits (f_chain u) ->
  (expert e = true -> f_ttl u / 1000 < 29 * 86400 /\ exists s, timefmt e (f_time u / 1000) = Some s) ->
  Z.of_nat i < numItems (form_obj (expert e) k u) -> nth_error (seen_head (expert e) u) i = Some l ->
  xdisplays (getItemTxV1 (form_obj (expert e) k u) (Z.of_nat i)) e o l.
Proof.
  intros X GC EX Li' Hi.
  pose proof (fpieces_of _ _ _ X) as Pc. pose proof (fa_wf _ _ _ X) as W. pose proof (fa_form _ _ _ X) as F.
  assert (PA : forall B q (kk : unit -> P B) o, match q with v1_initiator | v1_timestamp | v1_ttl | v1_chainname => True | _ => False end ->
    bind (index_headerpart_txnV1 (form_obj (expert e) k u) q) kk e o = kk tt e (fpart k u q)).
  { intros. rewrite (bind_Ret _ _ _ _ _ _ (part_seen e k u q o0 X ltac:(destruct q; auto; contradiction))). reflexivity. }
  destruct F as [Fh Fi Ft Fl Fp _ _ _ _]. change (@S.len Z) with (@zlen Z) in *. unfold seen_head in Hi.
  set (v := form_obj (expert e) k u) in *.
  apply nth_app2 in Hi. destruct Hi as [[L4 Hi]|[L4 Hi]].
  - unfold getItemTxV1, xdisplays. rewrite step_check by exact (proj2 (Z.ltb_lt _ _) Li'). rewrite step_ask.
    nth_split Hi; try (rewrite nth_error_nil in Hi; discriminate Hi); ground_eqb.
    + assert (M0 : metadata_size (tmeta v) + foff (tmeta v) 0 = tsize (n_top k)) by (unfold v; rewrite (proj2 (top1 e k u X)), Z.add_0_r; reflexivity).
      rewrite M0. pose proof (fp_hash _ _ _ Pc) as A. pose proof (at_bound _ _ _ W A) as Bd. pose proof (wf_max e W).
      rewrite step_set_off by lia. rewrite step_get_off. apply xdisplays_of. apply printBytes_shows; auto; lia.
    + eexists _, _. split; [reflexivity|]. split; [reflexivity|]. change (entry_point_type v) with (entry_no (f_entry u)). cbn [snd xl xrenders renders ival].
      rewrite entry_text_eq. reflexivity.
    + rewrite PA by exact I. rewrite step_get_off. change (chain_name_len (theader v)) with (u8 (zlen (f_chain u))).
      apply xdisplays_of. eapply chain_text; [exact W|exact (fp_chain _ _ _ Pc)|exact (chain_fits_shown _ GC)].
    + rewrite PA by exact I. rewrite step_get_off. change (initiator_address_len (theader v)) with (zlen (init_bytes (f_initiator u))).
      apply xdisplays_of. apply printBytes_shows; auto; [exact (fp_init _ _ _ Pc)|].
      destruct (f_initiator u) as [alg key|h]; cbn [init_bytes form_initiator] in *; rewrite ?zlen_cons; [|change (@S.len Z) with (@zlen Z) in Fi; lia].
      unfold any_key in Fi. change (@S.len Z) with (@zlen Z) in Fi. destruct Fi as [[_ ->]|[[_ E]|[_ E]]]; [change (zlen (@nil Z)) with 0|rewrite E..]; lia.
  - cbn [List.length] in L4, Hi. destruct (expert e) eqn:EE; [|rewrite nth_error_nil in Hi; discriminate Hi].
    destruct (EX eq_refl) as (ET' & [ts ES]).
    unfold getItemTxV1, xdisplays. rewrite step_check by exact (proj2 (Z.ltb_lt _ _) Li'). rewrite step_ask, EE.
    remember (i - 4)%nat as j eqn:Ej. assert (i = 4 + j)%nat as -> by lia. clear Ej.
    destruct j as [|[|j]]; cbn [nth_error app] in Hi; [| |rewrite nth_error_nil in Hi; discriminate Hi].
    -- injection Hi as <-. change (Z.of_nat (4 + 0)) with 4. ground_eqb. rewrite PA by exact I. eexists _, _. split.
       ++ unfold show_timestamp. step (readU64_at _ e _ W (fp_time _ _ _ Pc) ltac:(lia)). rewrite step_ask, ES. reflexivity.
       ++ split; [reflexivity|]. exists ts; auto.
    -- injection Hi as <-. change (Z.of_nat (4 + 1)) with 5. ground_eqb. rewrite PA by exact I.
       pose proof (show_ttl_at _ e _ W (fp_ttl _ _ _ Pc) Fl) as ST. replace (f_ttl u / 1000 <? 29 * 86400) with true in ST by lia.
       destruct ST as (s & ST & TT). eexists _, _. split; [exact ST|]. split; [reflexivity|]. exists s; auto.
Qed.

(** What acceptance implies. *)
Lemma chain_accepted e i n o it o' : wf e -> at_ e i n -> DISPLAY_STRING (str "Chain ID") i (u8 (zlen n)) e o = (Ret it, o') -> chain_fits n.
Proof.
  intros W A H. change (u8 (zlen n)) with (zlen n mod 256) in H. pose proof (cut_len n) as CL. pose proof (Z.mod_pos_bound (zlen n) 256 ltac:(lia)).
  rewrite <- (firstn_skipn (Z.to_nat (S.len n mod 256)) n) in A. apply at_app in A. destruct A as [A _]. fold (cut_chain n) in A.
  unfold DISPLAY_STRING in H. destruct (zlen n mod 256 <=? 100) eqn:E100.
  - rewrite step_check in H by lia. rewrite (step_at _ _ _ _ _ _ A) in H by lia. unfold c_text in H. unfold chain_fits.
    destruct (existsb (Z.eqb 0) (cut_chain n) || (zlen (cut_chain n) <? 100)) eqn:E; [|discriminate H].
    apply orb_true_iff in E. destruct E as [E|E]; [|left; lia]. apply existsb_exists in E. destruct E as (z & Iz & Ez). apply Z.eqb_eq in Ez. subst z.
    destruct (Z.eq_dec (zlen n mod 256) 100); [right|left]; auto; lia.
  - unfold check in H. unfold bind at 1 in H. replace (zlen n mod 256 <=? 100) with false in H. discriminate H.
Qed.
Lemma v1_fits pf x data k u v : hash32 (p_hash pf) -> bytes data -> zlen data < 65472 -> begins data k u -> tx_parse pf x (1 :: data) = Ret (TV1 v) ->
  few_args u -> chain_fits (f_chain u) /\ (x = true -> f_ttl u / 1000 < 29 * 86400 /\ exists s, p_time pf (f_time u / 1000) = Some s).
Proof.
  intros Hh B L Bg T FW. pose proof (v1_heading_there _ _ _ _ _ _ Hh B L Bg T FW) as CT.
  assert (Z8 : zlen (form_head x u) = if x then 8 else 4) by (unfold form_head; destruct x; [destruct (f_price u)|]; reflexivity). rewrite Z8 in CT.
  pose proof (v1_shown_all pf x 40 data v ltac:(lia) T) as [_ SA].
  destruct (proj1 (SA 2) ltac:(destruct x; lia)) as (i2 & I2).
  assert (H4 : x = true -> exists it, tx_getItem pf x 40 (1 :: data) (TV1 v) 4 = Ret it) by (intros ->; apply (proj1 (SA 4)); lia).
  assert (H5 : x = true -> exists it, tx_getItem pf x 40 (1 :: data) (TV1 v) 5 = Ret it) by (intros ->; apply (proj1 (SA 5)); lia).
  rewrite getItem_run in I2, H4, H5 by lia. pose proof (parsed_form _ _ _ _ _ _ Hh B L Bg T) as ->. destruct (begins_env pf x 40 data k u Hh B L Bg) as (X & _).
  set (e := ctx_of pf x false 40 data (zlen data)) in *. cbn [getItem getNumItems] in *.
  pose proof (fpieces_of _ _ _ X) as Pc. pose proof (fa_wf _ _ _ X) as W. pose proof (fa_form _ _ _ X) as F.
  assert (PR : forall q o, match q with v1_initiator | v1_timestamp | v1_ttl | v1_chainname => True | _ => False end -> index_headerpart_txnV1 (form_obj (expert e) k u) q e o = (Ret tt, fpart k u q))
    by (intros q o Q; apply part_seen; [exact X|destruct q; auto; contradiction]).
  destruct F as [Fh Fi Ft Fl Fp _ _ _ _]. change (form_obj x k u) with (form_obj (expert e) k u) in *.
  assert (NI : 4 <= numItems (form_obj (expert e) k u) /\ (x = true -> 8 <= numItems (form_obj (expert e) k u))) by (split; [destruct x; lia|intros Ex; rewrite Ex in CT at 1; lia]).
  split.
  - unfold getItemTxV1 in I2. rewrite step_check in I2 by lia. rewrite step_ask in I2. cbn [Z.eqb Pos.eqb andb] in I2. cbv iota in I2.
    rewrite (bind_Ret _ _ _ _ _ _ (PR v1_chainname 0 I)) in I2. rewrite step_get_off in I2. change (chain_name_len (theader (form_obj (expert e) k u))) with (u8 (zlen (f_chain u))) in I2.
    destruct (DISPLAY_STRING _ _ _ e _) as [r o'] eqn:D in I2. cbn [fst] in I2. subst r. eapply chain_accepted; [exact W|exact (fp_chain _ _ _ Pc)|exact D].
  - intros Ex. destruct (H4 Ex) as (i4 & I4). destruct (H5 Ex) as (i5 & I5). pose proof (proj2 NI Ex) as N8. assert (Ee : expert e = true) by exact Ex.
    set (vv := form_obj (expert e) k u) in *. clearbody vv.
    unfold getItemTxV1 in I4, I5. rewrite step_check in I4, I5 by lia. rewrite step_ask in I4, I5. rewrite Ee in I4, I5.
    cbn [Z.eqb Pos.eqb andb] in I4, I5. cbv iota in I4, I5.
    rewrite (bind_Ret _ _ _ _ _ _ (PR v1_timestamp 0 I)) in I4. rewrite (bind_Ret _ _ _ _ _ _ (PR v1_ttl 0 I)) in I5.
    split.
    + pose proof (show_ttl_at _ e _ W (fp_ttl _ _ _ Pc) Fl) as ST. destruct (f_ttl u / 1000 <? 29 * 86400) eqn:E; [lia|]. rewrite ST in I5. discriminate I5.
    + unfold show_timestamp in I4. rewrite (bind_Ret _ _ _ _ _ _ (readU64_at _ e _ W (fp_time _ _ _ Pc) ltac:(lia))) in I4. rewrite step_ask in I4.
      change (timefmt e) with (p_time pf) in I4. destruct (p_time pf (f_time u / 1000)) as [s|]; [eauto|discriminate I4].
Qed.
Lemma heading_any pf x kl data k u v i l : hash32 (p_hash pf) -> bytes data -> zlen data < 65472 -> begins data k u -> tx_parse pf x (1 :: data) = Ret (TV1 v) ->
  few_args u -> nth_error (seen_head x u) i = Some l ->
  Z.of_nat i < getNumItems x (TV1 v) /\ exists it, tx_getItem pf x kl (1 :: data) (TV1 v) (Z.of_nat i) = Ret it /\ xshows (p_hash pf) (p_time pf) l it.
Proof.
  intros Hh B L Bg T FW Hi. destruct (v1_fits _ _ _ _ _ _ Hh B L Bg T FW) as [CF EX]. pose proof (v1_heading_there _ _ _ _ _ _ Hh B L Bg T FW) as CT.
  assert (Z8 : zlen (form_head x u) = if x then 8 else 4) by (unfold form_head; destruct x; [destruct (f_price u)|]; reflexivity). rewrite Z8 in CT.
  assert (Li : Z.of_nat i < getNumItems x (TV1 v)).
  { pose proof (nth_cases _ _ _ Hi) as Lz. assert (ZS : List.length (seen_head x u) = if x then 6%nat else 4%nat) by (destruct x; reflexivity). rewrite ZS in Lz. destruct x; lia. }
  split; [exact Li|]. pose proof (parsed_form _ _ _ _ _ _ Hh B L Bg T) as ->. destruct (begins_env pf x kl data k u Hh B L Bg) as (X & _).
  rewrite getItem_run by lia. cbn [getItem]. set (e := ctx_of pf x false kl data (zlen data)) in *.
  destruct (head_any e k u i l 0 X CF EX Li Hi) as (it & o' & E & Sh). exists it. change (form_obj x k u) with (form_obj (expert e) k u). rewrite E. split; [reflexivity|exact Sh].
Qed.

(** In histories, when a transaction is signed. *)
Lemma signed_seen d s tr1 e st q pre tr2 v : device_ok d -> reach d s (tr1 ++ (e, st, Signed q pre) :: tr2) -> pending st = Some (RTx (TV1 v)) -> flash_size d <= 65472 ->
  exists data, tx_data (bufs st) = 1 :: data /\ forall k u, begins data k u ->
    pre = f_hash u /\ f_hash u = p_hash (plat d) (form_payload k u) /\
    (few_args u -> forall i l kl, nth_error (seen_head (expert_mode st) u) i = Some l -> Z.of_nat i < review_count st (RTx (TV1 v)) /\
     exists it, review_item d st (RTx (TV1 v)) kl (Z.of_nat i) = Ret it /\ xshows (p_hash (plat d)) (p_time (plat d)) l it) /\
    forall t lines, appears k u data t -> chain_shown (expert_mode st) (f_chain u) ->
     review (p_hash (plat d)) (expert_mode st) t = Some lines \/ bare_review (p_hash (plat d)) (expert_mode st) t = Some lines -> xexpert_ok (expert_mode st) (p_time (plat d)) (x_payload t) ->
     acceptable (x_payload t) = true /\ review_count st (RTx (TV1 v)) = zlen lines /\
     forall i l kl, nth_error lines i = Some l -> exists it, review_item d st (RTx (TV1 v)) kl (Z.of_nat i) = Ret it /\ xshows (p_hash (plat d)) (p_time (plat d)) l it.
Proof.
  intros D R P Fl. destruct (signing_data _ _ _ _ _ _ _ _ _ D R P) as (data & Ed & B & L & T & _). exists data. split; [exact Ed|]. intros k u Bg.
  destruct (signed_form _ _ _ _ _ _ _ _ _ D R P data k u Fl Ed Bg) as [E1 E2]. assert (Hh : hash32 (p_hash (plat d))) by apply D. assert (L' : zlen data < 65472) by lia.
  split; [exact E1|]. split; [congruence|]. split.
  - intros Fw i l kl Hi. destruct (heading_any _ _ kl _ _ _ _ _ _ Hh B L' Bg T Fw Hi) as (Li & Sh). split; [exact Li|]. cbn [review_item]. rewrite Ed. exact Sh.
  - intros t lines Ap CS RV EX. destruct (seen_accepted _ _ _ _ _ _ Hh B L' Bg Ap _ _ T CS RV EX) as (_ & AC & t' & T' & CN & Sh). split; [exact AC|].
    rewrite T in T'. injection T' as <-. split; [exact CN|]. intros i l kl Hi. cbn [review_item]. rewrite Ed. exact (Sh i l Hi kl).
Qed.
