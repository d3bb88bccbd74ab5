(** The verdict on bytes that begin with the form of a TransactionV1. *)
From Verif Require Import Base Zxlib Crypto Utils RuntimeArg Deploy DeployUI TxV1 TxV1UI Parser BaseFacts Spec SpecText SpecDeploy SpecTx SpecLayout SpecRaw SpecForm SpecShow Exec ArgsFacts ReaderFacts TextFacts Demo Shows DeployArgs SessionFacts ReviewFacts TxFacts TxBody TxShow TxReview RangeFacts BindFacts BindCases SafeFacts TxInv RawFacts TxAccept FwdFacts FormFacts FormUnique FormReview FormArgs FormRun.
Import S ST SD SX SL SR SF SW.

Lemma missing_short l cut : Forall form_approved l -> missing l cut -> zlen cut <= 64.
Proof.
  intros F [-> | (m & a & s & -> & E)]; [cbn; lia|]. apply Forall_app in F. destruct F as [_ F]. inversion F as [|? ? (_ & _ & L) _]; subst.
  change (@S.len Z) with (@zlen Z) in L. rewrite E, zlen_app in L. pose proof (zlen_nonneg s). lia.
Qed.
Lemma begins_env pf x kl data k u : hash32 (p_hash pf) -> bytes data -> zlen data < 65472 -> begins data k u ->
  let e := ctx_of pf x false kl data (zlen data) in
  form_at e k u /\ mostly (missing (f_approvals u)) e 0 (form_bytes k u) (zlen (form_bytes k u)) /\ zlen (form_bytes k u) < 65536.
Proof.
  intros Hh B L Bg e. destruct (begins_core _ _ _ Bg) as (m & Ed). destruct Bg as (Fo & No & rest & cut & E & DJ & Ms).
  pose proof (missing_short _ _ (fo_approvals _ Fo) Ms) as Lc. pose proof (f_equal (@zlen Z) E) as Le. rewrite !zlen_app in Le. pose proof (zlen_nonneg rest).
  split; [exact (form_env pf x kl data k u _ Hh B L Fo No Ed)|]. split; [|lia]. split; [lia|].
  destruct DJ as [-> | ->].
  - exists (form_bytes k u), []. rewrite app_nil_r in *. split; [reflexivity|]. split; [|split; [left; reflexivity|left; reflexivity]].
    apply slice_Some. exists [], rest. cbn [app mem ctx_of e]. auto.
  - exists data, cut. rewrite app_nil_r in E. split; [symmetry; exact E|]. split; [|split; [exact Ms|right; cbn [e blen ctx_of]; lia]].
    apply slice_Some. exists [], []. cbn [app mem ctx_of e]. rewrite app_nil_r. auto.
Qed.
Lemma sane_decided e k u t : form_at e k u -> depicts k u (mem e) t -> presentable t -> args_pos k u < 256 ->
  if acceptable (x_payload t) then sane_of e k u = Ret tt else exists c, sane_of e k u = Fail c.
Proof.
  intros X D G L. pose proof (fa_wf _ _ _ X) as W. pose proof (de_args _ _ _ _ D) as DA. unfold args_pos in L. rewrite (body_before _ _ _ X) in L.
  assert (Ho : 0 <= entry_end (body_at k u) k (f_args u) (f_target u) (f_entry u) < 65536).
  { pose proof (fp_entry _ _ _ (fpieces_of _ _ _ X)) as A. pose proof (at_bound _ _ _ W A) as Bo. pose proof (wf_max e W). unfold entry_end.
    pose proof (zlen_nonneg (under (snd (n_entry k)) (entry_fields (f_entry u)))). lia. }
  assert (B0 : 0 <= body_at k u).
  { pose proof (fp_args _ _ _ (fpieces_of _ _ _ X)) as A. rewrite <- (body_before _ _ _ X). unfold before_body. change (@S.len Z) with (@zlen Z).
    repeat match goal with |- context [zlen ?l] => lazymatch goal with Hq : 0 <= zlen l |- _ => fail | _ => pose proof (zlen_nonneg l) end end. lia. }
  unfold acceptable, sane_of, sane_form. rewrite (de_entry _ _ _ _ D), (de_target _ _ _ _ D).
  pose proof (fo_callable _ (fa_form _ _ _ X)) as Cl.
  assert (SN : forall a ao, Forall good_arg (named a) -> num_runtime_args ao = zlen (named a) ->
     (match f_entry u with Op _ => at_ e (runtime_args_offset ao) (enc_arg_list (named a)) | _ => True end) ->
     if callable (f_entry u) (f_target u) && complete (f_entry u) a
     then fst (check_sanity_native_transfer ao (entry_no (f_entry u)) (target_no (f_target u)) e (entry_end (body_at k u) k (f_args u) (f_target u) (f_entry u))) = Ret tt
     else exists c, fst (check_sanity_native_transfer ao (entry_no (f_entry u)) (target_no (f_target u)) e (entry_end (body_at k u) k (f_args u) (f_target u) (f_entry u))) = Fail c).
  { intros a ao Ga Na Aa. pose proof (sanity_at a (f_entry u) (f_target u) e _ W Ho Ga ao Na Aa) as Sx. destruct (_ && _); [rewrite Sx; reflexivity|].
    destruct Sx as (c & o' & Sx). exists c. rewrite Sx. reflexivity. }
  destruct (f_entry u) as [|nm|n] eqn:EE.
  - rewrite Cl. cbn [andb complete]. unfold check_sanity_native_transfer. rewrite step_get_off.
    assert (C : (entry_no Call =? EntryPointCustom) || (target_no (f_target u) =? TargetNative) || (target_no (f_target u) =? TargetSession) = true)
      by (destruct (f_target u) as [|[]|]; try discriminate Cl; reflexivity).
    rewrite C, step_check by reflexivity. cbn [entry_no]. cbv [EntryPointTransfer EntryPointAddBid EntryPointWithdrawBid EntryPointDelegate EntryPointUndelegate EntryPointRedelegate EntryPointActivateBid EntryPointChangePublicKey EntryPointAddReservations EntryPointCancelReservations EntryPointBurn].
    cbn [Z.eqb orb]. rewrite step_ret. unfold set_off. reflexivity.
  - rewrite Cl. cbn [andb complete]. unfold check_sanity_native_transfer. rewrite step_get_off. rewrite step_check by reflexivity.
    cbn [entry_no]. cbv [EntryPointTransfer EntryPointAddBid EntryPointWithdrawBid EntryPointDelegate EntryPointUndelegate EntryPointRedelegate EntryPointActivateBid EntryPointChangePublicKey EntryPointAddReservations EntryPointCancelReservations EntryPointBurn].
    cbn [Z.eqb Pos.eqb orb]. rewrite step_ret. unfold set_off. reflexivity.
  - destruct DA as (l & El & Ea). pose proof (named_at_f _ _ _ _ X Ea) as NA. pose proof (pr_args _ G) as Ga. rewrite El in *. apply SN.
    + exact Ga.
    + rewrite nargs_form, Ea. cbn [nargs named]. unfold zlen. rewrite map_length. reflexivity.
    + rewrite Ea. cbn [args_obj runtime_args_offset named]. rewrite u8_small by lia. replace (body_at k u + 6 + 9) with (body_at k u + 15) by lia. exact NA.
Qed.
Lemma valid_decided e k u o : form_at e k u -> 
  validateTxV1 (form_obj (expert e) k u) e o = if list_eqb (hash e (form_payload k u)) (f_hash u) then (Ret tt, o) else (Fail parser_context_mismatch, o).
Proof.
  intros [W F N A]. destruct (no_top _ _ N) as [Ct _]. destruct (no_payload _ _ N) as [_ Sp]. assert (ZH : zlen (f_hash u) = 32) by exact (fo_hash _ F).
  apply at_app in A. destruct A as [_ A]. rewrite zlen_heading in A. apply at_app in A. destruct A as [A1 A2]. rewrite ZH in A2. unfold at_ in A1, A2. rewrite ZH in A1.
  unfold form_payload in A2 at 1. rewrite zlen_under in A2. unfold tsize in A2.
  unfold validateTxV1. change (tmeta (form_obj (expert e) k u)) with (meta_of (n_top k)). change (tpayload_meta (form_obj (expert e) k u)) with (meta_of (n_payload k)).
  offs Ct. cbn [top_fields offsets nth meta_of metadata_size fields_size]. change (@S.len Z) with (@zlen Z). rewrite Sp, ZH. change (@S.len Z) with (@zlen Z).
  rewrite step_ask. unfold bind at 1. unfold mem_slice at 1. replace (8 + 6 * zlen (t_offs (n_top k)) + (0 + 32)) with (0 + (8 + 6 * zlen (t_offs (n_top k))) + 32) by lia. rewrite A2.
  unfold bind at 1. unfold mem_slice at 1. replace (8 + 6 * zlen (t_offs (n_top k)) + 0) with (0 + (8 + 6 * zlen (t_offs (n_top k)))) by lia. rewrite A1.
  unfold check. destruct (list_eqb _ _); reflexivity.
Qed.

Section Verdict.
Variables (pf : platform) (x : bool) (data : list Z) (k : numbers) (u : form) (t : transaction).
Hypotheses (Hh : hash32 (p_hash pf)) (B : bytes data) (L : zlen data < 65472) (Bg : begins data k u).
Hypotheses (D : depicts k u data t) (G : presentable t) (AP : args_pos k u < 256).
Let e := ctx_of pf x false 40 data (zlen data).

Lemma data_some : 0 < zlen data.
Proof.
  destruct (begins_env pf x 40 data k u Hh B L Bg) as (X & _). pose proof (at_bound _ _ _ (fa_wf _ _ _ X) (fa_at _ _ _ X)) as Bd. cbn [blen ctx_of] in Bd.
  rewrite zlen_app, zlen_heading in Bd. pose proof (zlen_nonneg (t_offs (n_top k))). pose proof (zlen_nonneg (f_hash u ++ form_payload k u)). lia.
Qed.
Lemma parse_as : tx_parse pf x (1 :: data) = fst ((t <- parse_content 1 ;; parser_validate t ;; ret t) e 0).
Proof.
  pose proof data_some. unfold tx_parse. rewrite zlen_cons, u16_small by lia. replace (1 + zlen data =? 0) with false by lia.
  replace (1 + zlen data =? 1) with false by lia. replace (1 + zlen data - 1) with (zlen data) by lia. reflexivity.
Qed.
Lemma verdict_no : (f_hash u <> p_hash pf (form_payload k u) \/ acceptable (x_payload t) = false) -> exists c, tx_parse pf x (1 :: data) = Fail c.
Proof.
  intros Bad. destruct (begins_env pf x 40 data k u Hh B L Bg) as (X & Mo & Lf). fold e in X, Mo.
  pose proof (form_run e k u X Mo Lf) as R. pose proof (sane_decided e k u t X D G AP) as Sn. rewrite parse_as.
  unfold parse_content. change (1 =? content_Deploy) with false. change (1 =? content_TransactionV1) with true. cbv iota. rewrite bind_assoc.
  destruct (acceptable (x_payload t)).
  - destruct Bad as [Bad|Bad]; [|discriminate Bad]. rewrite Sn in R. cbn [follows] in R. step R. rewrite step_ret. unfold parser_validate. rewrite bind_assoc.
    pose proof (valid_decided e k u (zlen (form_bytes k u)) X) as V. destruct (list_eqb _ _) eqn:E.
    + apply list_eqb_eq in E. exfalso. apply Bad. symmetry. exact E.
    + exists parser_context_mismatch. unfold bind at 1. rewrite V. reflexivity.
  - destruct Sn as (c & Sn). rewrite Sn in R. cbn [follows] in R. destruct R as (o' & R). exists c. rewrite (bind_Fail _ _ _ _ _ _ R). reflexivity.
Qed.
Lemma verdict_yes lines : f_hash u = p_hash pf (form_payload k u) -> acceptable (x_payload t) = true ->
  review (p_hash pf) x t = Some lines \/ bare_review (p_hash pf) x t = Some lines -> xexpert_ok x (p_time pf) (x_payload t) ->
  xreviews pf x (1 :: data) lines.
Proof.
  intros HV AC R EX. destruct (begins_env pf x 40 data k u Hh B L Bg) as (X & Mo & Lf). fold e in X, Mo.
  pose proof (form_run e k u X Mo Lf) as RR. pose proof (sane_decided e k u t X D G AP) as Sn. rewrite AC in Sn. rewrite Sn in RR. cbn [follows] in RR.
  assert (FR : exists ls, lines = frame x t ls /\ (body_review (p_hash pf) x (x_payload t) = Some ls \/ bare_body (p_hash pf) x (x_payload t) = Some ls)).
  { unfold review, bare_review in R. destruct R as [R|R]; [destruct (body_review _ _ _) as [s|]|destruct (bare_body _ _ _) as [s|]]; try discriminate R; some_inj R; eauto. }
  destruct FR as (ls & -> & R').
  assert (FE : forall kl, form_at (ctx_of pf x false kl data (zlen data)) k u) by (intros kl; apply (begins_env pf x kl data k u Hh B L Bg)).
  assert (SB : forall kl, shows_form (ctx_of pf x false kl data (zlen data)) (form_obj x k u) ls) by (intros kl; exact (body_lines_f _ k u t ls (FE kl) D G AP R')).
  exists (TV1 (form_obj x k u)).
  assert (CN : getNumItems x (TV1 (form_obj x k u)) = zlen (frame x t ls)).
  { cbn [getNumItems]. rewrite (sh_len _ _ _ (SB 40)). change (expert (ctx_of pf x false 40 data (zlen data))) with x.
    unfold frame. assert (ZL : zlen (pricing_lines (x_pricing (x_payload t))) = 2) by (destruct (x_pricing (x_payload t)); reflexivity).
    destruct x; rewrite !zlen_app, ?zlen_cons, ?ZL; repeat match goal with |- context [zlen (@nil ?A)] => change (zlen (@nil A)) with 0 end; lia. }
  split; [|split; [exact CN|]].
  - rewrite parse_as. unfold parse_content. change (1 =? content_Deploy) with false. change (1 =? content_TransactionV1) with true. cbv iota. rewrite bind_assoc.
    step RR. rewrite step_ret. unfold parser_validate. rewrite bind_assoc.
    pose proof (valid_decided e k u (zlen (form_bytes k u)) X) as V. change (hash e) with (p_hash pf) in V. rewrite <- HV in V. 
    replace (list_eqb (f_hash u) (f_hash u)) with true in V by (symmetry; apply list_eqb_eq; reflexivity). step V. rewrite bind_assoc, step_ask. change (expert e) with x. rewrite CN.
    destruct (xitems_ok e (TV1 (form_obj x k u)) (frame x t ls)) with (n := Z.to_nat (zlen (frame x t ls))) (idx := 0%nat) (o := zlen (form_bytes k u)) as (its & o2 & HI).
    + intros i l o Hi. exact (form_lines e k u t ls i l o X D G (SB 40) EX Hi).
    + unfold zlen. lia.
    + change (Z.of_nat 0) with 0 in HI. step HI. reflexivity.
  - intros i l Hi kl. pose proof (zlen_nonneg data). unfold tx_getItem. cbv iota. rewrite zlen_cons, u16_small by lia. replace (1 + zlen data - 1) with (zlen data) by lia.
    destruct (form_lines _ k u t ls i l 0 (FE kl) D G (SB kl) EX Hi) as (it & o' & E1 & SH).
    exists it. cbn [getItem]. change (expert (ctx_of pf x false kl data (zlen data))) with x in E1. rewrite E1. split; [reflexivity | exact SH].
Qed.
End Verdict.

(** Whatever else: with a wrong hash nothing is accepted. *)
Lemma verdict_hash pf x data k u v : hash32 (p_hash pf) -> bytes data -> zlen data < 65472 -> begins data k u -> f_hash u <> p_hash pf (form_payload k u) ->
  tx_parse pf x (1 :: data) <> Ret v.
Proof.
  intros Hh B L Bg Bad. destruct (begins_env pf x 40 data k u Hh B L Bg) as (X & Mo & Lf).
  pose proof (form_run _ k u X Mo Lf) as R. rewrite (parse_as pf x data k u Hh B L Bg). set (e := ctx_of pf x false 40 data (zlen data)) in *.
  unfold parse_content. change (1 =? content_Deploy) with false. change (1 =? content_TransactionV1) with true. cbv iota. rewrite bind_assoc.
  destruct (sane_of e k u) as [w|c|w]; cbn [follows] in R.
  - step R. rewrite step_ret. unfold parser_validate. rewrite bind_assoc.
    pose proof (valid_decided e k u (zlen (form_bytes k u)) X) as V. destruct (list_eqb _ _) eqn:E.
    + apply list_eqb_eq in E. exfalso. apply Bad. symmetry. exact E.
    + unfold bind at 1. rewrite V. discriminate.
  - destruct R as (o' & R). rewrite (bind_Fail _ _ _ _ _ _ R). discriminate.
  - destruct R as (o' & R). unfold bind at 1. rewrite R. discriminate.
Qed.

(** ** What lies outside of the payload *)
Definition re_top (k : numbers) (tb : tbl) : numbers :=
  Numbers tb (n_payload k) (n_initiator k) (n_price k) (n_args k) (n_target k) (n_id k) (n_runtime k) (n_entry k) (n_sched k).
Definition re_signed (u : form) (l : list approved) : form :=
  Form (f_hash u) (f_initiator u) (f_time u) (f_ttl u) (f_chain u) (f_price u) (f_args u) (f_target u) (f_entry u) l.
Definition re_counted (t : transaction) (l : list SD.approval) : transaction := Transaction (x_hash t) (x_payload t) l.
Lemma re_payload k u tb l : form_payload (re_top k tb) (re_signed u l) = form_payload k u.
Proof. reflexivity. Qed.
Lemma re_begins data' k u k' u' : form_ok u -> numbers_ok k u -> begins data' k' u' -> form_payload k u = form_payload k' u' -> f_hash u = f_hash u' ->
  begins data' (re_top k (n_top k')) (re_signed u (f_approvals u')).
Proof.
  intros F N (F' & N' & rest & cut & E & DJ & Ms) Ep Eh. split; [|split].
  - destruct F. constructor; cbn [re_signed f_hash f_initiator f_time f_ttl f_chain f_price f_args f_target f_entry f_approvals]; auto. exact (fo_approvals _ F').
  - destruct N. constructor; cbn [re_top re_signed n_top n_payload n_initiator n_price n_args n_target n_id n_runtime n_entry n_sched f_initiator f_price f_target f_entry]; auto.
    pose proof (no_top _ _ N') as T. unfold top_fields in *. cbn [re_signed f_hash f_approvals]. rewrite re_payload, Ep, Eh. exact T.
  - exists rest, cut. split; [|split; [exact DJ|exact Ms]]. rewrite E. unfold form_bytes, top_fields. cbn [re_top n_top re_signed f_hash f_approvals]. rewrite re_payload, Ep, Eh. reflexivity.
Qed.
Lemma re_args_pos k u tb l : args_pos (re_top k tb) (re_signed u l) = args_pos k u + zlen (heading tb) - zlen (heading (n_top k)).
Proof. unfold args_pos, before_body. cbn [re_top re_signed n_top n_payload n_initiator n_price f_hash f_initiator f_chain f_price]. change (@S.len Z) with (@zlen Z). lia. Qed.
Lemma re_depicts data data' k u tb l t ap : begins data k u -> begins data' (re_top k tb) (re_signed u l) -> inside k u -> depicts k u data t -> len ap = len l ->
  depicts (re_top k tb) (re_signed u l) data' (re_counted t ap).
Proof.
  intros Bg Bg' In D La. pose proof (de_args _ _ _ _ D) as DA. destruct D. constructor; cbn [re_counted re_signed x_hash x_payload x_approvals f_hash f_initiator f_time f_ttl f_chain f_price f_args f_target f_entry f_approvals]; auto.
  unfold inside in In. destruct (f_entry u) as [|nm|n]; auto. destruct DA as (bs & Eb & Dg). exists bs. split; [exact Eb|].
  unfold digested in *. cbn [re_signed f_args]. destruct (f_args u) as [q|b]; [|exact Dg]. destruct Dg as [Hr Lr]. split; [|exact Lr].
  destruct (begins_core _ _ _ Bg) as (m & Ed). destruct (begins_core _ _ _ Bg') as (m' & Ed'). destruct (core_args k u) as (pre & post & E & P).
  destruct Bg as (_ & No & _). pose proof (no_args _ _ No) as Wn. unfold word in Wn. destruct In as [I1 I2]. change (@S.len Z) with (@zlen Z) in *. rewrite Z.mod_small in Lr by lia.
  unfold core in Ed, Ed'. rewrite re_payload in Ed'. cbn [re_top re_signed n_top f_hash f_approvals] in Ed'.
  replace ((heading (n_top k) ++ f_hash u ++ form_payload k u) ++ le 4 (zlen (f_approvals u)) ++ m)
    with ((heading (n_top k) ++ f_hash u) ++ form_payload k u ++ (le 4 (zlen (f_approvals u)) ++ m)) in Ed by (rewrite <- !app_assoc; reflexivity).
  rewrite Ed in Hr. apply here_in in Hr; [|pose proof (zlen_nonneg pre); lia|rewrite !zlen_app in *; lia].
  destruct Hr as (s & r & Es & Ls). rewrite Es in Ed'. exists (heading tb ++ f_hash u ++ s), (r ++ le 4 (zlen l) ++ m'). split.
  - rewrite Ed'. rewrite <- !app_assoc. reflexivity.
  - change (@S.len Z) with (@zlen Z). rewrite re_args_pos, !zlen_app in *. lia.
Qed.
Lemma removelast_frame (x : bool) t s l : x_payload l = x_payload t -> x_hash l = x_hash t -> if x then removelast (frame x l s) = removelast (frame x t s) else frame x l s = frame x t s.
Proof.
  intros E1 E2. unfold frame. rewrite E1, E2. destruct x; [|reflexivity]. rewrite !app_assoc, !removelast_last. reflexivity.
Qed.
(** The same hash and payload, whatever the table before and whatever follows. *)
Lemma outside pf x data data' k u k' u' t lines : hash32 (p_hash pf) -> bytes data -> bytes data' -> zlen data < 65472 -> zlen data' < 65472 ->
  begins data k u -> begins data' k' u' -> form_payload k u = form_payload k' u' -> f_hash u = f_hash u' -> inside k u ->
  depicts k u data t -> presentable t -> review (p_hash pf) x t = Some lines \/ bare_review (p_hash pf) x t = Some lines -> xexpert_ok x (p_time pf) (x_payload t) ->
  args_pos k u < 256 -> args_pos k' u' < 256 -> zlen (f_approvals u') < 256 ->
  ((exists v, tx_parse pf x (1 :: data) = Ret v) <-> (exists v, tx_parse pf x (1 :: data') = Ret v)) /\
  ((exists v, tx_parse pf x (1 :: data) = Ret v) ->
   exists lines', xreviews pf x (1 :: data) lines /\ xreviews pf x (1 :: data') lines' /\ if x then removelast lines' = removelast lines else lines' = lines).
Proof.
  intros Hh B B' L L' Bg Bg' Ep Eh In D G R EX AP AP' LA. 
  pose proof (re_begins data' k u k' u' (proj1 Bg) (proj1 (proj2 Bg)) Bg' Ep Eh) as Bg2.
  set (ap := List.map (fun _ => SD.Approval 1 [] []) (f_approvals u')).
  assert (La : len ap = len (f_approvals u')) by (unfold ap; change (@S.len) with (@zlen); unfold zlen; rewrite map_length; reflexivity).
  pose proof (re_depicts data data' k u _ _ t ap Bg Bg2 In D La) as D2.
  assert (G2 : presentable (re_counted t ap)).
  { destruct G. constructor; auto. cbn [re_counted x_approvals]. rewrite La. exact LA. }
  rewrite <- (same_at _ _ _ _ (form_unique data' _ _ _ _ ltac:(lia) Bg2 Bg')) in AP'.
  assert (FR : exists ls, lines = frame x t ls /\ (review (p_hash pf) x (re_counted t ap) = Some (frame x (re_counted t ap) ls) \/ bare_review (p_hash pf) x (re_counted t ap) = Some (frame x (re_counted t ap) ls))).
  { unfold review, bare_review in *. cbn [re_counted x_payload]. destruct R as [R|R]; [destruct (body_review _ _ _) as [s|]|destruct (bare_body _ _ _) as [s|]]; try discriminate R; some_inj R; eauto. }
  destruct FR as (ls & El & R2).
  pose proof (verdict_yes pf x data k u t Hh B L Bg D G AP lines) as Y1.
  pose proof (verdict_yes pf x data' _ _ _ Hh B' L' Bg2 D2 G2 AP' (frame x (re_counted t ap) ls)) as Y2. rewrite re_payload in Y2. cbn [re_signed re_counted f_hash x_payload] in Y2.
  pose proof (verdict_no pf x data k u t Hh B L Bg D G AP) as N1.
  pose proof (verdict_no pf x data' _ _ _ Hh B' L' Bg2 D2 G2 AP') as N2. rewrite re_payload in N2. cbn [re_signed re_counted f_hash x_payload] in N2.
  destruct (list_eqb (f_hash u) (p_hash pf (form_payload k u))) eqn:Q.
  - apply list_eqb_eq in Q. destruct (acceptable (x_payload t)) eqn:AC.
    + specialize (Y1 Q eq_refl R EX). specialize (Y2 Q eq_refl R2 EX). split.
      * destruct Y1 as (v1 & P1 & _), Y2 as (v2 & P2 & _). split; intros _; eauto.
      * intros _. eexists. split; [exact Y1|]. split; [exact Y2|]. rewrite El. apply removelast_frame; reflexivity.
    + destruct (N1 (or_intror eq_refl)) as (c1 & F1), (N2 (or_intror eq_refl)) as (c2 & F2). split; [split|]; intros (v & P); congruence.
  - assert (NQ : f_hash u <> p_hash pf (form_payload k u)) by (intros E; apply list_eqb_eq in E; congruence).
    destruct (N1 (or_introl NQ)) as (c1 & F1), (N2 (or_introl NQ)) as (c2 & F2). split; [split|]; intros (v & P); congruence.
Qed.
