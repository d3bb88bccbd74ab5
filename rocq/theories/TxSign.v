(** What is signed for a TransactionV1. *)
From Verif Require Import Base Zxlib Crypto Utils RuntimeArg Deploy DeployUI TxV1 TxV1UI Parser BaseFacts Spec SpecText SpecDeploy SpecTx SpecLayout Exec ArgsFacts ReaderFacts TextFacts RangeFacts BindFacts OklFacts BindCases SafeFacts TxInv Demo SpecApp App AppFacts AppHist AppClaims AppSign TxAccept.
Import S SX SL.

Lemma v1_signed d s tr1 e st p pre tr2 v kl : device_ok d ->
  reach d s (tr1 ++ (e, st, Signed p pre) :: tr2) -> pending st = Some (RTx (TV1 v)) ->
  (exists tab payload rest, tx_data (bufs st) = 1 :: tab ++ pre ++ payload ++ rest /\ zlen pre = 32 /\
     p_hash (plat d) payload = pre /\
     (exists top pay, tab = raw_head (t_n top) (t_offs top) (t_size top) /\ tbl_at tab 0 top /\ tbl_at payload 0 pay /\ zlen payload = fin 0 pay)) /\
  (0 < review_count st (RTx (TV1 v)) ->
   review_item d st (RTx (TV1 v)) kl 0 = Ret (mkItem (S.text "Txn hash") (VPaged (ST.cep57 (p_hash (plat d) pre) pre)))).
Proof.
  intros D R P. destruct (reach_at _ _ _ _ _ _ _ R) as (R1 & _ & st' & E & _).
  pose proof (reach_buf _ _ _ D R1) as B.
  destruct (signed_step _ _ _ _ _ _ D B E) as (-> & _ & Sg & _).
  destruct (tx_sign _ _ _ _ _ _ D R1 P Sg) as (k & rest & Ed & -> & Sl).
  destruct (review_state _ _ _ _ D R1 P) as (tr0 & bs & st0 & R0 & Ps & A & _).
  pose proof (act_opens _ _ _ _ _ _ A Ps P) as (_ & _ & _ & _ & _ & T & _).
  destruct (reach_data _ _ _ D R1) as [Bd L]. rewrite Ed in *.
  assert (Br : bytes rest) by (inversion Bd; assumption).
  assert (Lr : zlen rest < 65535) by (rewrite zlen_cons in L; lia).
  destruct (payload_bound _ _ _ _ (dev_hash d D) Br Lr T) as (top & pay & tab & dh & py & r & Er & Ld & Hp & Et & Tt & Tp & Fp & Ms & Sh).
  assert (Ep : dh = pre).
  { rewrite Ms, Er in Sl. pose proof (slice_mid tab dh (py ++ r)) as X. rewrite Ld in X. congruence. }
  rewrite Ep in *. clear dh Ep. split.
  - exists tab, py, r. split; [rewrite Er; reflexivity|]. split; [exact Ld|]. split; [exact Hp|].
    exists top, pay. split; [exact Et|]. split; [|split; [|exact Fp]].
    + apply (tbl_part [] tab (pre ++ py ++ r)); [cbn [Datatypes.app]; rewrite <- Er; exact Tt|].
      rewrite Et, zlen_raw_head. unfold first. change (S.len (t_offs top)) with (zlen (t_offs top)). lia.
    + apply (tbl_part (tab ++ pre) py r); [rewrite zlen_app, Ld, <- app_assoc, <- Er; exact Tp|]. rewrite Fp. unfold fin. lia.
  - intros N. cbn [review_count] in N. cbn [review_item]. rewrite Ed.
    destruct (v1_shown_all _ _ kl _ _ Lr T) as [_ V]. destruct (proj1 (V 0) ltac:(lia)) as (it & G). rewrite G. f_equal. apply (Sh kl it G).
Qed.
