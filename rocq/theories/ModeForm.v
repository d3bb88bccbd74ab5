(** Reviews in both modes of bytes that begin with a TransactionV1 form. *)
From Verif Require Import Base Zxlib Crypto Utils RuntimeArg Deploy DeployUI TxV1 TxV1UI Parser BaseFacts Spec SpecText SpecDeploy SpecTx SpecLayout SpecRaw SpecForm SpecShow SpecHead Exec Demo TxFacts TxBody FormFacts FormReview FormAccept FormSign ModeV1.
Import S SX SL SR SF SW SH.

Lemma expert_covers_form pf data k u v : hash32 (p_hash pf) -> bytes data -> zlen data < 65472 -> begins data k u ->
  tx_parse pf true (1 :: data) = Ret (TV1 v) -> few_args u -> version_known true (f_target u) ->
  exists w (place : Z -> Z), tx_parse pf false (1 :: data) = Ret (TV1 w) /\
    (forall i j, 0 <= i < j -> j < getNumItems false (TV1 w) -> place i < place j) /\
    forall i, 0 <= i < getNumItems false (TV1 w) -> 0 <= place i < getNumItems true (TV1 v) /\
      forall kl, tx_getItem pf false kl (1 :: data) (TV1 w) i = tx_getItem pf true kl (1 :: data) (TV1 v) (place i).
Proof.
  intros Hh B L Bg T Fw VK. pose proof (parsed_form _ _ _ _ _ _ Hh B L Bg T) as Ev. apply expert_covers_v1_any; auto; try lia; subst v.
  - unfold form_obj, body_obj. cbn [targs]. unfold few_args in Fw. destruct (f_args u); cbn; [change (@S.len raw_arg) with (@zlen raw_arg) in Fw|]; lia.
  - unfold form_obj, body_obj, clear_version. cbn [ttarget]. specialize (VK eq_refl). destruct (f_target u) as [|[h|n|h [ver|]|n [ver|]] r|]; cbn in *; try discriminate; try tauto.
    all: intros _ E; destruct VK as [_ VK]; apply VK; f_equal; exact E.
Qed.
