(** The lines of the price of every TransactionV1 accepted in expert mode. *)
From Verif Require Import Base Zxlib Crypto Utils RuntimeArg Deploy DeployUI TxV1 TxV1UI Parser BaseFacts Spec SpecText SpecDeploy SpecTx SpecLayout SpecRaw SpecForm SpecShow SpecHead SpecWrap Exec ArgsFacts ReaderFacts TextFacts Demo Shows DeployArgs SessionFacts ReviewFacts TxFacts TxBody TxShow TxReview RangeFacts BindFacts BindCases SafeFacts TxInv RawFacts TxAccept FwdFacts FormFacts FormUnique FormReview FormArgs FormRun FormAccept App SpecApp AppFacts AppHist AppClaims AppSign FormSign DeploySign OklFacts HeadFacts HeadClear FormShow FormSeen HeadSeen.
Import S ST SD SX SL SR SF SW SH SG.

Lemma num_below s : Forall digit s -> 0 <= num s < 10 ^ zlen s.
Proof.
  unfold num. assert (G : forall s a, 0 <= a -> Forall digit s -> a * 10 ^ zlen s <= fold_left (fun a c => 10 * a + (c - 48)) s a < (a + 1) * 10 ^ zlen s).
  { clear s. induction s as [|c s IH]; intros a Ha F; [cbn; lia|]. inversion F as [|? ? Dc Fs]; subst. cbn [fold_left]. unfold digit in Dc.
    specialize (IH (10 * a + (c - 48)) ltac:(lia) Fs). rewrite zlen_cons, Z.pow_add_r by (pose proof (zlen_nonneg s); lia). pose proof (Z.pow_pos_nonneg 10 (zlen s) ltac:(lia) (zlen_nonneg s)). nia. }
  intros F. pose proof (G s 0 ltac:(lia) F). lia.
Qed.
Lemma v1_price_fits pf data k u v a g s : hash32 (p_hash pf) -> bytes data -> zlen data < 65472 -> begins data k u -> tx_parse pf true (1 :: data) = Ret (TV1 v) ->
  few_args u -> zlen (f_chain u) < 256 -> f_price u = PClassic a g s -> a < 10 ^ 19.
Proof.
  intros Hh B L Bg T FW LC EQ. pose proof (v1_heading_there _ _ _ _ _ _ Hh B L Bg T FW) as CT.
  assert (Z8 : zlen (form_head true u) = 8) by (unfold form_head; destruct (f_price u); reflexivity). rewrite Z8 in CT.
  pose proof (v1_shown_all pf true 40 data v ltac:(lia) T) as [_ SA].
  destruct (proj1 (SA 6) ltac:(lia)) as (i6 & I6).
  rewrite getItem_run in I6 by lia. pose proof (parsed_form _ _ _ _ _ _ Hh B L Bg T) as ->. destruct (begins_env pf true 40 data k u Hh B L Bg) as (X & _).
  set (e := ctx_of pf true false 40 data (zlen data)) in *. cbn [getItem getNumItems] in *.
  pose proof (fpieces_of _ _ _ X) as Pc. pose proof (fa_wf _ _ _ X) as W.
  pose proof (fo_price _ (fa_form _ _ _ X)) as GQ. pose proof (fp_price _ _ _ Pc) as AR.
  pose proof (fun o => part_run_f e k u X v1_payment o LC) as PR.
  change (form_obj true k u) with (form_obj (expert e) k u) in *.
  rewrite EQ in AR, GQ. cbn [price_tail form_price] in AR, GQ. rewrite !at_app, le_length in AR. destruct AR as (A1 & _).
  assert (PM : pricing_mode (theader (form_obj (expert e) k u)) = 0) by (change (price_no (f_price u) = 0); rewrite EQ; reflexivity).
  assert (Ee : expert e = true) by reflexivity. set (vv := form_obj (expert e) k u) in *. clearbody vv.
  unfold getItemTxV1 in I6. rewrite step_check in I6 by lia. rewrite step_ask in I6. rewrite Ee in I6.
  cbn [Z.eqb Pos.eqb andb] in I6. cbv iota in I6. unfold pricing_mode_items in I6. change (6 <? 6 + 2) with true in I6. cbv iota in I6. change (6 - 6) with 0 in I6.
  unfold getItem_pricing_mode in I6. change (0 =? 0) with true in I6. cbv iota in I6. unfold ignoring_errors, payment_value in I6. rewrite PM in I6. change (0 =? PricingModeClassic) with true in I6. cbv iota in I6.
  destruct (Z.lt_ge_cases a (10 ^ 19)) as [|Ge]; [assumption|exfalso].
  assert (DL : zlen (dec a) <? 20 = false).
  { destruct (dec_decimal a ltac:(lia)) as (_ & DD & NV & _). pose proof (num_below _ DD) as NB. rewrite NV in NB. apply Z.ltb_ge.
    destruct (Z.lt_ge_cases (zlen (dec a)) 20) as [C|C]; [|exact C]. pose proof (Z.pow_le_mono_r 10 (zlen (dec a)) 19 ltac:(lia) ltac:(lia)). lia. }
  unfold bind at 1, try in I6. rewrite (bind_Ret _ _ _ _ _ _ (PR 0)) in I6. rewrite (bind_Ret _ _ _ _ _ _ (readU64_at _ e _ W A1 ltac:(lia))) in I6.
  unfold uint64_to_str in I6. rewrite DL in I6. discriminate I6.
Qed.
Lemma price_shown pf kl data k u v i l : hash32 (p_hash pf) -> bytes data -> zlen data < 65472 -> begins data k u -> tx_parse pf true (1 :: data) = Ret (TV1 v) ->
  few_args u -> S.len (f_chain u) < 256 -> nth_error (price_lines (f_price u)) i = Some l ->
  6 + Z.of_nat i < getNumItems true (TV1 v) /\ exists it, tx_getItem pf true kl (1 :: data) (TV1 v) (6 + Z.of_nat i) = Ret it /\ xshows (p_hash pf) (p_time pf) l it.
Proof.
  intros Hh B L Bg T FW LC Hi. pose proof (v1_heading_there _ _ _ _ _ _ Hh B L Bg T FW) as CT.
  assert (Z8 : zlen (form_head true u) = 8) by (unfold form_head; destruct (f_price u); reflexivity). rewrite Z8 in CT.
  assert (J2 : Z.of_nat i < 2) by (pose proof (nth_cases _ _ _ Hi) as Lz; destruct (f_price u); cbn [price_lines List.length] in Lz; lia).
  split; [lia|]. pose proof (fun a g s => v1_price_fits _ _ _ _ _ a g s Hh B L Bg T FW LC) as FT.
  rewrite getItem_run by lia. pose proof (parsed_form _ _ _ _ _ _ Hh B L Bg T) as ->. destruct (begins_env pf true kl data k u Hh B L Bg) as (X & _).
  set (e := ctx_of pf true false kl data (zlen data)) in *. cbn [getItem getNumItems] in *. 
  assert (PL : price_lines (f_price u) = pricing_lines (x_pricing (x_payload (headed u)))) by (cbn; destruct (f_price u); reflexivity). rewrite PL in Hi.
  assert (MX : match x_pricing (x_payload (headed u)) with Classic a _ _ => a < 10 ^ 19 | _ => True end).
  { change (x_pricing (x_payload (headed u))) with (pricing_of (f_price u)). destruct (f_price u); cbn [pricing_of]; [exact (FT _ _ _ eq_refl)|exact Logic.I|exact Logic.I]. }
  destruct (pricing_items_f e k u (headed u) i l 0 X LC (to_pricing _ _ (headed_tops u)) MX Hi) as (it & o' & E & Sh).
  exists it. split; [|exact Sh]. change (form_obj true k u) with (form_obj (expert e) k u) in *. assert (Ee : expert e = true) by reflexivity.
  set (vv := form_obj (expert e) k u) in *. clearbody vv. unfold getItemTxV1. rewrite step_check by lia. rewrite step_ask, Ee.
  replace (6 + Z.of_nat i =? 0) with false by lia. replace (6 + Z.of_nat i =? 1) with false by lia.
  replace (6 + Z.of_nat i =? 2) with false by lia. replace (6 + Z.of_nat i =? 3) with false by lia.
  replace (6 + Z.of_nat i =? 4) with false by lia. replace (6 + Z.of_nat i =? 5) with false by lia.
  unfold pricing_mode_items. replace (6 + Z.of_nat i <? 6 + 2) with true by lia. cbn [andb].
  replace (6 + Z.of_nat i - 6) with (Z.of_nat i) by lia. rewrite E. reflexivity.
Qed.
