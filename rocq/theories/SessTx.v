(** A complete session for a transaction, from any idle state. *)
From Verif Require Import Base Zxlib Crypto Utils RuntimeArg Deploy DeployUI TxV1 TxV1UI Parser BaseFacts Spec SpecText SpecDeploy SpecTx SpecLayout Exec ArgsFacts ReaderFacts TextFacts RangeFacts BindFacts OklFacts BindCases SafeFacts TxInv Demo Shows ReviewFacts TxShow TxReview SpecApp SpecSess App AppFacts AppHist AppClaims AppSign TxAccept TxSign MoreSign SessFacts.
Import S.

(** [h] is the hash in [data] and the digest of the part it belongs to *)
Definition hash_in (H : list Z -> list Z) (data h : list Z) : Prop :=
  zlen h = 32 /\
  ((exists hdr rest, data = 0 :: hdr ++ h ++ rest /\ H hdr = h) \/
   (exists tab payload rest, data = 1 :: tab ++ h ++ payload ++ rest /\ H payload = h)).

Lemma spot_hash pf x data t : hash32 (p_hash pf) -> bytes data -> zlen data < 65536 -> tx_parse pf x data = Ret t ->
  exists k rest h, data = k :: rest /\ slice rest (spot t) 32 = Some h /\ hash_in (p_hash pf) data h /\
    (0 < getNumItems x t -> forall kl, tx_getItem pf x kl data t 0 = Ret (mkItem (text "Txn hash") (VPaged (ST.cep57 (p_hash pf h) h)))).
Proof.
  intros Hh B L T. destruct (parse_of_tx _ _ _ _ T L) as (k & rest & -> & Nr & PP & Kt).
  assert (Br : bytes rest) by (inversion B; assumption).
  assert (Lr : zlen rest < 65535) by (rewrite zlen_cons in L; lia).
  destruct t as [v|v]; subst k.
  - destruct (hashes_checked _ _ _ _ Hh Br Lr T) as (hdr & dh & body & r & alg & key & f24 & bh & post & Er & Ld & Hd & _ & _ & _ & _ & _ & _ & Lh & It).
    exists 0, rest, dh. split; [reflexivity|]. split; [|split].
    + cbn [spot]. rewrite <- Lh, Er. pose proof (slice_mid hdr dh (body ++ r)) as X. rewrite Ld in X. exact X.
    + split; [exact Ld|]. left. exists hdr, (body ++ r). rewrite Er. auto.
    + intros _ kl. exact (It kl).
  - destruct (payload_bound _ _ _ _ Hh Br Lr T) as (top & pay & tab & dh & py & r & Er & Ld & Hp & Et & Tt & Tp & Fp & Ms & Sh).
    exists 1, rest, dh. split; [reflexivity|]. split; [|split].
    + cbn [spot]. rewrite Ms, Er. pose proof (slice_mid tab dh (py ++ r)) as X. rewrite Ld in X. exact X.
    + split; [exact Ld|]. right. exists tab, py, r. rewrite Er. auto.
    + intros N kl. destruct (v1_shown_all _ _ kl _ _ Lr T) as [_ V]. destruct (proj1 (V 0) ltac:(lia)) as (it & G).
      rewrite G. f_equal. exact (Sh kl it G).
Qed.

(** the signature once the review of [t] is open *)
Lemma approve_tx d s1 t : device_ok d -> bytes (tx_data (bufs s1)) -> zlen (tx_data (bufs s1)) < 65536 ->
  tx_parse (plat d) (expert_mode s1) (tx_data (bufs s1)) = Ret t ->
  let s := set_pending (Some (RTx t)) (tx_parse_effect d s1) in
  exists h, step d s (Approve true) = Ret (set_pending None s, Signed (hdPath s1) h) /\ hash_in (p_hash (plat d)) (tx_data (bufs s1)) h /\
    (0 < getNumItems (expert_mode s1) t -> forall kl, tx_getItem (plat d) (expert_mode s1) kl (tx_data (bufs s1)) t 0
        = Ret (mkItem (text "Txn hash") (VPaged (ST.cep57 (p_hash (plat d) h) h)))).
Proof.
  intros D B L T s. destruct (spot_hash _ _ _ _ (dev_hash d D) B L T) as (k & rest & h & Ed & Sl & Hi & It).
  exists h. split; [|split; assumption].
  destruct (parse_of_tx _ _ _ _ T L) as (k' & rest' & Ed' & Nr & PP & Kt). rewrite Ed in Ed'. injection Ed' as <- <-.
  destruct (tpe d s1) as (A1 & A2 & A3 & A4 & A5 & A6 & A7).
  assert (Sg : app_sign d s = Ret (Signed (hdPath s1) h)).
  { unfold app_sign, s. cbn [set_pending bufs ctx obj_type hdPath]. rewrite A3, A4, Ed.
    unfold sign_preimage. cbn [set_pending ctx obj_type obj_header obj_v1].
    unfold tx_parse_effect. rewrite Ed. rewrite Ed in PP. rewrite PP.
    destruct t as [v|v]; subst k; cbn [spot] in Sl; cbn; rewrite Sl; reflexivity. }
  unfold step. replace (pending s) with (Some (RTx t)) by reflexivity. rewrite Sg. reflexivity.
Qed.

Lemma concat_bytes cs c : Forall bytes cs -> bytes c -> bytes (List.concat cs ++ c).
Proof. intros F B. apply bytes_app. split; [|exact B]. induction F as [|x l X _ IH]; [constructor|]. cbn. apply bytes_app. auto. Qed.

Lemma tx_signed d s tr p cs c t : device_ok d -> reach d s tr -> pending s = None ->
  20 <= zlen p -> SA.casper_path (SS.words5 p) -> bytes (List.concat cs ++ c) -> zlen (List.concat cs ++ c) <= flash_size d ->
  tx_parse (plat d) (expert_mode s) (List.concat cs ++ c) = Ret t ->
  exists s' st tr' h s'',
    run d s (sends 2 p cs c) = Ret (s', tr' ++ [(Apdu (SS.cmd 2 2 c) true, st, NoReply)]) /\
    Forall (fun x => snd x = Status [] SA.ok) tr' /\
    pending s' = Some (RTx t) /\ review_count s' (RTx t) = getNumItems (expert_mode s) t /\
    (forall kl i, review_item d s' (RTx t) kl i = tx_getItem (plat d) (expert_mode s) kl (List.concat cs ++ c) t i) /\
    step d s' (Approve true) = Ret (s'', Signed (SS.words5 p) h) /\ pending s'' = None /\
    hash_in (p_hash (plat d)) (List.concat cs ++ c) h /\
    (0 < getNumItems (expert_mode s) t -> forall kl, review_item d s' (RTx t) kl 0 = Ret (mkItem (text "Txn hash") (VPaged (ST.cep57 (p_hash (plat d) h) h)))).
Proof.
  intros D R P Lp C B L T.
  destruct (tx_session d s p cs c t D (reach_buf _ _ _ D R) P Lp C L T) as (s' & st & s1 & tr' & Rn & F & E' & Ed & Eh & Ex).
  rewrite <- Ed, <- Ex, <- Eh in *. assert (L' : zlen (tx_data (bufs s1)) < 65536) by (destruct D; lia).
  destruct (approve_tx d s1 t D B L' T) as (h & St & Hi & It). destruct (tpe d s1) as (A1 & A2 & A3 & A4 & A5 & A6 & A7).
  assert (RI : forall kl i, review_item d s' (RTx t) kl i = tx_getItem (plat d) (expert_mode s1) kl (tx_data (bufs s1)) t i).
  { intros kl i. rewrite E'. cbn [review_item set_pending expert_mode bufs]. rewrite A4, A6. reflexivity. }
  exists s', st, tr', h, (set_pending None s'). split; [exact Rn|]. split; [exact F|].
  split; [rewrite E'; reflexivity|]. split; [rewrite E'; cbn [review_count set_pending expert_mode]; rewrite A6; reflexivity|].
  split; [exact RI|]. split; [rewrite E'; exact St|]. split; [reflexivity|]. split; [exact Hi|]. intros N kl. rewrite RI. auto.
Qed.

(** ** Well-formed deploys and transactions *)
Lemma hash_bytes H data h : bytes data -> hash_in H data h -> bytes h.
Proof.
  intros B [_ [(hdr & rest & -> & _)|(tab & py & rest & -> & _)]].
  - inversion B as [|? ? _ Q]; subst. apply bytes_app in Q. destruct Q as [_ Q]. apply bytes_app in Q. tauto.
  - inversion B as [|? ? _ Q]; subst. apply bytes_app in Q. destruct Q as [_ Q]. apply bytes_app in Q. tauto.
Qed.

Import SD.
Lemma deploy_signed d s tr p cs c dp lines : device_ok d -> reach d s tr -> pending s = None ->
  20 <= zlen p -> SA.casper_path (SS.words5 p) -> 
  good_deploy (p_hash (plat d)) dp -> expert_ok (expert_mode s) (p_time (plat d)) (d_header dp) ->
  SD.review (p_hash (plat d)) (expert_mode s) dp = Some lines ->
  List.concat cs ++ c = enc_tx dp -> zlen (enc_tx dp) <= flash_size d ->
  exists s' st tr' r s'',
    run d s (sends 2 p cs c) = Ret (s', tr' ++ [(Apdu (SS.cmd 2 2 c) true, st, NoReply)]) /\
    Forall (fun x => snd x = Status [] SA.ok) tr' /\
    pending s' = Some r /\ review_count s' r = zlen lines /\
    (forall i l, nth_error lines i = Some l -> forall kl,
       exists it, review_item d s' r kl (Z.of_nat i) = Ret it /\ shows (p_hash (plat d)) (p_time (plat d)) l it) /\
    step d s' (Approve true) = Ret (s'', Signed (SS.words5 p) (d_hash dp)) /\ pending s'' = None.
Proof.
  intros D R P Lp C G X Rv E L. assert (B : bytes (enc_tx dp)) by (unfold enc_tx; constructor; [unfold byte; lia | exact (gd_bytes _ _ G)]). pose proof (deploy_review _ _ _ _ (dev_hash d D) G Rv X) as (t & T & N & Sh).
  rewrite <- E in T, L, B, Sh. destruct (tx_signed d s tr p cs c t D R P Lp C B L T) as (s' & st & tr' & h & s'' & Rn & F & Pe & Rc & Ri & St & P2 & Hi & It).
  assert (Eh : h = d_hash dp).
  { unfold SD.review in Rv. destruct (session_review _ _ _) as [ls|]; [|discriminate]. injection Rv as <-.
    destruct (Sh 0%nat _ eq_refl 40) as (it & Gi & Ik & Iv). rewrite N in It.
    specialize (It ltac:(unfold around; rewrite zlen_app; pose proof (zlen_nonneg (([] : list line) ++ ls)); unfold zlen; cbn [List.length]; lia) 40).
    rewrite Ri in It. change (Z.of_nat 0) with 0 in Gi. rewrite Gi in It. injection It as ->. cbn in Iv. injection Iv as Iv.
    eapply cep57_inj; [| |exact Iv]; [eapply hash_bytes; [exact B | exact Hi]|].
    rewrite (gd_hash _ _ G). apply (dev_hash d D). }
  subst h. exists s', st, tr', (RTx t), s''. rewrite Rc, N. repeat (split; [assumption || reflexivity|]). split.
  - intros i l Hn kl. rewrite Ri. apply Sh. exact Hn.
  - split; assumption.
Qed.

Lemma transaction_signed d s tr p cs c t lines : device_ok d -> reach d s tr -> pending s = None ->
  20 <= zlen p -> SA.casper_path (SS.words5 p) ->
  SX.good_transaction (p_hash (plat d)) t -> xexpert_ok (expert_mode s) (p_time (plat d)) (SX.x_payload t) ->
  SX.review (p_hash (plat d)) (expert_mode s) t = Some lines -> SX.before_args t < 256 ->
  List.concat cs ++ c = SX.enc_v1 t -> zlen (SX.enc_v1 t) <= flash_size d ->
  exists s' st tr' r s'',
    run d s (sends 2 p cs c) = Ret (s', tr' ++ [(Apdu (SS.cmd 2 2 c) true, st, NoReply)]) /\
    Forall (fun x => snd x = Status [] SA.ok) tr' /\
    pending s' = Some r /\ review_count s' r = zlen lines /\
    (forall i l, nth_error lines i = Some l -> forall kl,
       exists it, review_item d s' r kl (Z.of_nat i) = Ret it /\ xshows (p_hash (plat d)) (p_time (plat d)) l it) /\
    step d s' (Approve true) = Ret (s'', Signed (SS.words5 p) (SX.x_hash t)) /\ pending s'' = None.
Proof.
  intros D R P Lp C G X Rv Ba E L.
  assert (B : bytes (SX.enc_v1 t)) by (unfold SX.enc_v1; constructor; [unfold byte; lia | exact (SX.gt_bytes _ _ G)]).
  pose proof (v1_review _ _ _ _ (dev_hash d D) G Rv X Ba) as (v & T & N & Sh).
  rewrite <- E in T, L, B, Sh. destruct (tx_signed d s tr p cs c v D R P Lp C B L T) as (s' & st & tr' & h & s'' & Rn & F & Pe & Rc & Ri & St & P2 & Hi & It).
  assert (Eh : h = SX.x_hash t).
  { unfold SX.review in Rv. destruct (SX.body_review _ _ _) as [ls|]; [|discriminate]. injection Rv as <-.
    destruct (Sh 0%nat _ eq_refl 40) as (it & Gi & Ik & Iv). rewrite N in It.
    specialize (It ltac:(unfold SX.frame; rewrite zlen_app; match goal with |- context [zlen ?a + zlen ?b] => pose proof (zlen_nonneg b) end; unfold zlen at 1; cbn [List.length]; lia) 40).
    rewrite Ri in It. change (Z.of_nat 0) with 0 in Gi. rewrite Gi in It. injection It as ->. cbn in Iv. injection Iv as Iv.
    eapply cep57_inj; [| |exact Iv]; [eapply hash_bytes; [exact B | exact Hi]|].
    rewrite (SX.gt_hash _ _ G). apply (dev_hash d D). }
  subst h. exists s', st, tr', (RTx v), s''. rewrite Rc, N. repeat (split; [assumption || reflexivity|]). split.
  - intros i l Hn kl. rewrite Ri. apply Sh. exact Hn.
  - split; assumption.
Qed.
