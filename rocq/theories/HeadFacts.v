(** The lines of the heading of anything accepted. *)
From Verif Require Import Base Zxlib Crypto Utils RuntimeArg Deploy DeployUI TxV1 TxV1UI Parser BaseFacts Spec SpecText SpecDeploy SpecTx SpecLayout SpecRaw SpecForm SpecShow SpecHead Exec ArgsFacts ReaderFacts TextFacts Demo Shows DeployArgs SessionFacts ReviewFacts TxFacts TxBody TxShow TxReview RangeFacts BindFacts BindCases SafeFacts TxInv RawFacts TxAccept FwdFacts FormFacts FormUnique FormReview FormArgs FormRun FormAccept App SpecApp AppFacts AppHist AppClaims AppSign FormSign DeploySign.
Import S ST SD SX SL SR SF SW SH.

(** * TransactionV1 *)
(** A transaction with the heading of [u]. *)
Definition pricing_of (p : price) : pricing := match p with PClassic a g _ => Classic a g false | PFixed g f => Fixed g f | PPrepaid r => Prepaid r end.
Definition headed (u : form) : transaction :=
  Transaction (f_hash u) (Payload (f_initiator u) (f_time u) (f_ttl u) (f_chain u) (pricing_of (f_price u)) (Raw []) (f_target u) (f_entry u)) [].
Lemma headed_tops u : tops u (headed u).
Proof. constructor; try reflexivity. cbn. destruct (f_price u); cbn; auto. Qed.
Lemma headed_lines x u : form_head x u = top_lines x (headed u).
Proof. unfold form_head, top_lines, frame, headed. cbn. destruct x; [destruct (f_price u)|]; reflexivity. Qed.

Lemma v1_heading pf x kl data k u v i l : hash32 (p_hash pf) -> bytes data -> zlen data < 65472 -> begins data k u -> tx_parse pf x (1 :: data) = Ret (TV1 v) ->
  form_clear x (p_time pf) u -> nth_error (form_head x u) i = Some l -> Z.of_nat i < getNumItems x (TV1 v) ->
  exists it, tx_getItem pf x kl (1 :: data) (TV1 v) (Z.of_nat i) = Ret it /\ xshows (p_hash pf) (p_time pf) l it.
Proof.
  intros Hh B L Bg T [C1 C2] Hi Li. pose proof (parsed_form _ _ _ _ _ _ Hh B L Bg T) as ->. destruct (begins_env pf x kl data k u Hh B L Bg) as (X & _).
  set (e := ctx_of pf x false kl data (zlen data)) in *. rewrite headed_lines in Hi.
  assert (EX : xexpert_ok (expert e) (timefmt e) (x_payload (headed u))).
  { intros Ee. destruct (C2 Ee) as (A1 & A2 & A3). cbn. split; [exact A1|]. split; [exact A2|]. destruct (f_price u); cbn; auto. }
  destruct (head_lines_f e k u (headed u) i l 0 X (headed_tops u) C1 EX Li Hi) as (it & o' & E & Sh).
  exists it. pose proof (zlen_nonneg data). unfold tx_getItem. cbv iota. rewrite zlen_cons, u16_small by lia. replace (1 + zlen data - 1) with (zlen data) by lia.
  cbn [getItem]. fold e. change x with (expert e). rewrite E. split; [reflexivity|exact Sh].
Qed.

Lemma v1_heading_there pf x data k u v : hash32 (p_hash pf) -> bytes data -> zlen data < 65472 -> begins data k u -> tx_parse pf x (1 :: data) = Ret (TV1 v) ->
  few_args u -> zlen (form_head x u) <= getNumItems x (TV1 v).
Proof.
  intros Hh B L Bg T Fw. pose proof (parsed_form _ _ _ _ _ _ Hh B L Bg T) as ->. pose proof (items_of (ctx_of pf x false 40 data (zlen data)) k u) as N. cbn [expert ctx_of] in N. cbn [getNumItems]. rewrite N.
  assert (R : 0 <= tgt_items x (f_target u) <= 4) by (destruct (f_target u) as [|[]|]; cbn [tgt_items]; unfold ver_item, b2z; try destruct (_ && _); lia).
  assert (A : 0 <= nargs (f_args u) < 240) by (unfold few_args in Fw; destruct (f_args u); cbn [nargs] in *; [pose proof (zlen_nonneg l); change (@S.len raw_arg) with (@zlen raw_arg) in Fw|]; lia).
  assert (E : 1 <= entry_point_items x (entry_no (f_entry u)) (nargs (f_args u)) <= 240).
  { unfold entry_point_items. destruct x; repeat match goal with |- context [if ?b then _ else _] => destruct b end; lia. }
  assert (H : zlen (form_head x u) = if x then 8 else 4) by (unfold form_head; destruct x; [destruct (f_price u)|]; reflexivity).
  rewrite H. destruct x; rewrite u8_small; lia.
Qed.
