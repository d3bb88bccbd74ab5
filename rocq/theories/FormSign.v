(** What the signature of a TransactionV1 stands for, in any history. *)
From Verif Require Import Base Zxlib Crypto Utils RuntimeArg Deploy DeployUI TxV1 TxV1UI Parser BaseFacts Spec SpecText SpecDeploy SpecTx SpecLayout SpecRaw SpecForm SpecShow Exec ArgsFacts ReaderFacts TextFacts Demo Shows DeployArgs SessionFacts ReviewFacts TxFacts TxBody TxShow TxReview RangeFacts BindFacts BindCases SafeFacts TxInv RawFacts TxAccept FwdFacts FormFacts FormUnique FormReview FormArgs FormRun FormAccept App SpecApp AppFacts AppHist AppClaims AppSign.
Import S ST SD SX SL SR SF SW.

(** The review on screen has these lines. *)
Definition on_screen (d : device) (st : App.app) (r : App.review) (lines : list xline) : Prop :=
  review_count st r = zlen lines /\
  forall i l, nth_error lines i = Some l -> forall kl, exists it, review_item d st r kl (Z.of_nat i) = Ret it /\ xshows (p_hash (plat d)) (p_time (plat d)) l it.

Lemma parsed_form pf x data k u v : hash32 (p_hash pf) -> bytes data -> zlen data < 65472 -> begins data k u -> tx_parse pf x (1 :: data) = Ret (TV1 v) ->
  v = form_obj x k u.
Proof.
  intros Hh B L Bg P. destruct (begins_env pf x 40 data k u Hh B L Bg) as (X & Mo & Lf).
  pose proof (form_run _ k u X Mo Lf) as R. rewrite (parse_as pf x data k u Hh B L Bg) in P. set (e := ctx_of pf x false 40 data (zlen data)) in *.
  unfold parse_content in P. change (1 =? content_Deploy) with false in P. change (1 =? content_TransactionV1) with true in P. cbv iota in P. rewrite bind_assoc in P.
  destruct (sane_of e k u) as [w|c|w]; cbn [follows] in R.
  - rewrite (bind_Ret _ _ _ _ _ _ R) in P. rewrite step_ret in P. unfold bind at 1 in P. destruct (parser_validate _ _ _) as [[|c|c] o2]; try discriminate P.
    injection P as <-. reflexivity.
  - destruct R as (o' & R). rewrite (bind_Fail _ _ _ _ _ _ R) in P. discriminate P.
  - destruct R as (o' & R). unfold bind at 1 in P. rewrite R in P. discriminate P.
Qed.

Section Signing.
Variables (d : device) (s : App.app) (tr1 : list AppFacts.entry) (e : event) (st : App.app) (p pre : list Z) (tr2 : list AppFacts.entry) (v : txv1).
Hypotheses (D : device_ok d) (R : reach d s (tr1 ++ (e, st, Signed p pre) :: tr2)) (P : pending st = Some (RTx (TV1 v))).

Lemma signing_data : exists data, tx_data (bufs st) = 1 :: data /\ bytes data /\ zlen data < flash_size d /\
  tx_parse (plat d) (expert_mode st) (1 :: data) = Ret (TV1 v) /\ slice data (metadata_size (tmeta v) + foff (tmeta v) 0) 32 = Some pre.
Proof.
  destruct (reach_at _ _ _ _ _ _ _ R) as (R1 & _ & st' & E & _). pose proof (reach_buf _ _ _ D R1) as B.
  destruct (signed_step _ _ _ _ _ _ D B E) as (_ & _ & Sg & _). destruct (tx_sign _ _ _ _ _ _ D R1 P Sg) as (k & rest & Ed & -> & Sl).
  destruct (review_state _ _ _ _ D R1 P) as (tr0 & bs & st0 & R0 & Ps & A & _). pose proof (act_opens _ _ _ _ _ _ A Ps P) as (_ & _ & _ & _ & _ & T & _).
  destruct (reach_data _ _ _ D R1) as [Bd _]. pose proof (tx_data_len _ _ B D) as L. rewrite Ed in *. exists rest. split; [reflexivity|]. split; [inversion Bd; assumption|].
  split; [rewrite zlen_cons in L; lia|]. auto.
Qed.

Lemma signed_form data k u : flash_size d <= 65472 -> tx_data (bufs st) = 1 :: data -> begins data k u -> pre = f_hash u /\ pre = p_hash (plat d) (form_payload k u).
Proof.
  intros Fl Ed Bg. destruct signing_data as (data' & Ed' & B & L & T & Sl). rewrite Ed in Ed'. injection Ed' as <-.
  assert (Hh : hash32 (p_hash (plat d))) by apply D. assert (L' : zlen data < 65472) by lia.
  assert (Eh : f_hash u = p_hash (plat d) (form_payload k u)).
  { destruct (list_eqb (f_hash u) (p_hash (plat d) (form_payload k u))) eqn:X; [apply list_eqb_eq; exact X|].
    exfalso. apply (verdict_hash (plat d) (expert_mode st) data k u (TV1 v) Hh B L' Bg); [|exact T]. intros Y. apply list_eqb_eq in Y. congruence. }
  pose proof (parsed_form _ _ _ _ _ _ Hh B L' Bg T) as Ev. destruct (begins_core _ _ _ Bg) as (post & Ec). destruct Bg as (Fo & No & _).
  destruct (no_top _ _ No) as [Ct _]. assert (ZH : zlen (f_hash u) = 32) by exact (fo_hash _ Fo).
  enough (pre = f_hash u) by (split; congruence).
  assert (Of : foff (meta_of (n_top k)) 0 = 0) by (offs Ct; reflexivity).
  rewrite Ev in Sl. change (tmeta (form_obj (expert_mode st) k u)) with (meta_of (n_top k)) in Sl. rewrite Of in Sl.
  replace (metadata_size (meta_of (n_top k)) + 0) with (zlen (heading (n_top k))) in Sl by (rewrite zlen_heading; cbn; change (@S.len Z) with (@zlen Z); lia).
  unfold core in Ec. rewrite <- !app_assoc in Ec. rewrite Ec in Sl. rewrite <- ZH in Sl. rewrite slice_mid in Sl. injection Sl as ->. reflexivity.
Qed.
End Signing.

(** What was on screen when it was signed. *)
Lemma signed_screen d s tr1 e st p pre tr2 v data k u t lines : device_ok d -> reach d s (tr1 ++ (e, st, Signed p pre) :: tr2) -> pending st = Some (RTx (TV1 v)) ->
  flash_size d <= 65472 -> tx_data (bufs st) = 1 :: data -> begins data k u -> depicts k u data t -> presentable t -> args_pos k u < 256 ->
  review (p_hash (plat d)) (expert_mode st) t = Some lines \/ bare_review (p_hash (plat d)) (expert_mode st) t = Some lines ->
  xexpert_ok (expert_mode st) (p_time (plat d)) (x_payload t) -> on_screen d st (RTx (TV1 v)) lines.
Proof.
  intros D R P Fl Ed Bg De G AP Rv EX. destruct (signing_data _ _ _ _ _ _ _ _ _ D R P) as (data' & Ed' & B & L & T & _). rewrite Ed in Ed'. injection Ed' as <-.
  destruct (signed_form _ _ _ _ _ _ _ _ _ D R P data k u Fl Ed Bg) as [E1 E2]. assert (Hh : hash32 (p_hash (plat d))) by apply D. assert (L' : zlen data < 65472) by lia.
  assert (AC : acceptable (x_payload t) = true).
  { destruct (acceptable (x_payload t)) eqn:X; [reflexivity|]. destruct (verdict_no (plat d) (expert_mode st) data k u t Hh B L' Bg De G AP (or_intror X)) as (c & F). congruence. }
  destruct (verdict_yes (plat d) (expert_mode st) data k u t Hh B L' Bg De G AP lines ltac:(congruence) AC Rv EX) as (t' & T' & N & I).
  rewrite T in T'. injection T' as <-. split; [exact N|]. cbn [review_item]. rewrite Ed. exact I.
Qed.

(** Two signatures of the same bytes. *)
Lemma same_signed d s tr1 e st p pre tr2 v data k u d' s' tr1' e' st' p' tr2' v' data' k' u' t lines :
  device_ok d -> reach d s (tr1 ++ (e, st, Signed p pre) :: tr2) -> pending st = Some (RTx (TV1 v)) -> flash_size d <= 65472 -> tx_data (bufs st) = 1 :: data -> begins data k u ->
  device_ok d' -> reach d' s' (tr1' ++ (e', st', Signed p' pre) :: tr2') -> pending st' = Some (RTx (TV1 v')) -> flash_size d' <= 65472 -> tx_data (bufs st') = 1 :: data' -> begins data' k' u' ->
  plat d = plat d' -> expert_mode st = expert_mode st' ->
  inside k u -> depicts k u data t -> presentable t -> review (p_hash (plat d)) (expert_mode st) t = Some lines \/ bare_review (p_hash (plat d)) (expert_mode st) t = Some lines ->
  xexpert_ok (expert_mode st) (p_time (plat d)) (x_payload t) -> args_pos k u < 256 -> args_pos k' u' < 256 -> zlen (f_approvals u') < 256 ->
  (form_payload k u = form_payload k' u' /\
   exists lines', on_screen d st (RTx (TV1 v)) lines /\ on_screen d' st' (RTx (TV1 v')) lines' /\ if expert_mode st then removelast lines' = removelast lines else lines' = lines) \/
  (form_payload k u <> form_payload k' u' /\ p_hash (plat d) (form_payload k u) = p_hash (plat d) (form_payload k' u')).
Proof.
  intros D R P Fl Ed Bg D' R' P' Fl' Ed' Bg' Ep Ex In De G Rv EX AP AP' Na.
  destruct (signed_form _ _ _ _ _ _ _ _ _ D R P data k u Fl Ed Bg) as [E1 E2]. destruct (signed_form _ _ _ _ _ _ _ _ _ D' R' P' data' k' u' Fl' Ed' Bg') as [E1' E2'].
  destruct (signing_data _ _ _ _ _ _ _ _ _ D R P) as (q & Eq & B & L & T & _). rewrite Ed in Eq. injection Eq as <-.
  destruct (signing_data _ _ _ _ _ _ _ _ _ D' R' P') as (q & Eq & B' & L' & T' & _). rewrite Ed' in Eq. injection Eq as <-.
  assert (Hh : hash32 (p_hash (plat d))) by apply D. rewrite <- Ep in *. rewrite <- Ex in *.
  destruct (list_eqb (form_payload k u) (form_payload k' u')) eqn:X.
  2:{ right. split; [|congruence]. intros Y. apply list_eqb_eq in Y. congruence. }
  left. apply list_eqb_eq in X. split; [exact X|].
  destruct (outside (plat d) (expert_mode st) data data' k u k' u' t lines) as (_ & O); auto; try lia; try congruence.
  destruct (O (ex_intro _ _ T)) as (lines' & (a & Ta & Na1 & Ia) & (b & Tb & Nb & Ib) & El). exists lines'.
  rewrite T in Ta. injection Ta as <-. rewrite T' in Tb. injection Tb as <-.
  split; [|split; [|exact El]].
  - split; [exact Na1|]. cbn [review_item]. rewrite Ed. exact Ia.
  - split; cbn [review_count review_item]; [rewrite <- Ex; exact Nb|]. rewrite Ed', <- Ep, <- Ex. exact Ib.
Qed.

Lemma signed_v1 d s tr1 e st p pre tr2 v : device_ok d -> reach d s (tr1 ++ (e, st, Signed p pre) :: tr2) -> pending st = Some (RTx (TV1 v)) -> flash_size d <= 65472 ->
  exists data, tx_data (bufs st) = 1 :: data /\ (no_wasm_chunks tr1 -> sent tr1 = 1 :: data) /\
    (no_leap data -> exists k u, begins data k u /\ pre = f_hash u) /\
    forall k u, begins data k u -> pre = f_hash u /\ pre = p_hash (plat d) (form_payload k u) /\
      forall t lines, depicts k u data t -> presentable t -> args_pos k u < 256 ->
      review (p_hash (plat d)) (expert_mode st) t = Some lines \/ bare_review (p_hash (plat d)) (expert_mode st) t = Some lines ->
      xexpert_ok (expert_mode st) (p_time (plat d)) (x_payload t) -> on_screen d st (RTx (TV1 v)) lines.
Proof.
  intros D R P Fl. destruct (signing_data _ _ _ _ _ _ _ _ _ D R P) as (data & Ed & B & L & T & _). exists data. split; [exact Ed|].
  assert (Hh : hash32 (p_hash (plat d))) by apply D. split; [|split].
  - intros NW. destruct (reach_at _ _ _ _ _ _ _ R) as (R1 & _). rewrite <- Ed. symmetry. exact (reach_sent _ _ _ D R1 NW).
  - intros NL. destruct (form_begins _ _ _ _ Hh B ltac:(lia) NL T) as (k & u & Bg & _). exists k, u. split; [exact Bg|]. exact (proj1 (signed_form _ _ _ _ _ _ _ _ _ D R P data k u Fl Ed Bg)).
  - intros k u Bg. destruct (signed_form _ _ _ _ _ _ _ _ _ D R P data k u Fl Ed Bg) as [E1 E2]. split; [exact E1|]. split; [exact E2|]. intros t lines De G AP Rv EX. eapply signed_screen; eauto.
Qed.
