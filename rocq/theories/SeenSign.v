(** Two signatures of the same payload, wherever its arguments are. *)
From Verif Require Import Base Zxlib Crypto Utils RuntimeArg Deploy DeployUI TxV1 TxV1UI Parser BaseFacts Spec SpecText SpecDeploy SpecTx SpecLayout SpecRaw SpecForm SpecShow SpecHead SpecWrap Exec ArgsFacts ReaderFacts TextFacts Demo Shows DeployArgs SessionFacts ReviewFacts TxFacts TxBody TxShow TxReview RangeFacts BindFacts BindCases SafeFacts TxInv RawFacts TxAccept FwdFacts FormFacts FormUnique FormReview FormArgs FormRun FormAccept App SpecApp AppFacts AppHist AppClaims AppSign FormSign DeploySign OklFacts HeadFacts HeadClear FormShow FormSeen HeadSeen.
Import S ST SD SX SL SR SF SW SH SG.

Lemma re_seen_pos k u tb l : args_pos (re_top k tb) (re_signed u l) / 256 = args_pos k u / 256 ->
  seen_pos (re_top k tb) (re_signed u l) = seen_pos k u + zlen (heading tb) - zlen (heading (n_top k)).
Proof. intros Q. unfold seen_pos. pose proof (re_args_pos k u tb l). lia. Qed.
Lemma re_here data data' k u tb l i bs : begins data k u -> begins data' (re_top k tb) (re_signed u l) -> signed_range k u i (zlen bs) -> here data i bs ->
  here data' (i + zlen (heading tb) - zlen (heading (n_top k))) bs.
Proof.
  intros Bg Bg' [R1 R2] Hr. destruct (begins_core _ _ _ Bg) as (m & Ed). destruct (begins_core _ _ _ Bg') as (m' & Ed'). change (@S.len Z) with (@zlen Z) in *.
  unfold core in Ed, Ed'. rewrite re_payload in Ed'. cbn [re_top re_signed n_top f_hash f_approvals] in Ed'.
  replace ((heading (n_top k) ++ f_hash u ++ form_payload k u) ++ le 4 (zlen (f_approvals u)) ++ m)
    with (heading (n_top k) ++ (f_hash u ++ form_payload k u) ++ (le 4 (zlen (f_approvals u)) ++ m)) in Ed by (rewrite <- !app_assoc; reflexivity).
  rewrite Ed in Hr. apply here_in in Hr; [|lia|rewrite !zlen_app in *; lia].
  destruct Hr as (s & r & Es & Ls). rewrite Es in Ed'. exists (heading tb ++ s), (r ++ le 4 (zlen l) ++ m'). split.
  - rewrite Ed'. rewrite <- !app_assoc. reflexivity.
  - change (@S.len Z) with (@zlen Z). rewrite !zlen_app in *. lia.
Qed.
Lemma re_appears data data' k u tb l t ap : begins data k u -> begins data' (re_top k tb) (re_signed u l) -> within k u t -> appears k u data t ->
  args_pos (re_top k tb) (re_signed u l) / 256 = args_pos k u / 256 -> len ap = len l mod 256 ->
  appears (re_top k tb) (re_signed u l) data' (re_counted t ap).
Proof.
  intros Bg Bg' Wi D Q La. pose proof (ap_args _ _ _ _ D) as DA. pose proof (re_seen_pos k u tb l Q) as SP. destruct D.
  constructor; cbn [re_counted re_signed x_hash x_payload x_approvals f_hash f_initiator f_time f_ttl f_chain f_price f_args f_target f_entry f_approvals]; auto.
  unfold within in Wi. destruct (f_entry u) as [|nm|n]; auto.
  - destruct DA as (bs & Eb & Sb). exists bs. split; [exact Eb|]. rewrite Eb in Wi. unfold seen_bytes in *. cbn [re_signed f_args re_top n_args]. rewrite SP.
    destruct (f_args u) as [q|b]; destruct Sb as [Hr Lr]; (split; [|exact Lr]).
    + replace (seen_pos k u + zlen (heading tb) - zlen (heading (n_top k)) - 4) with (seen_pos k u - 4 + zlen (heading tb) - zlen (heading (n_top k))) by lia. eapply re_here; eauto.
    + eapply re_here; eauto.
  - destruct DA as (q & El & G & Ln & Hr). exists q. split; [exact El|]. split; [exact G|]. split; [exact Ln|]. rewrite El in Wi. rewrite SP. eapply re_here; eauto.
Qed.

(** The same hash and payload, whatever the table before and whatever follows. *)
Lemma outside_seen pf x data data' k u k' u' t lines : hash32 (p_hash pf) -> bytes data -> bytes data' -> zlen data < 65472 -> zlen data' < 65472 ->
  begins data k u -> begins data' k' u' -> form_payload k u = form_payload k' u' -> f_hash u = f_hash u' -> within k u t ->
  appears k u data t -> chain_shown x (f_chain u) -> review (p_hash pf) x t = Some lines \/ bare_review (p_hash pf) x t = Some lines -> xexpert_ok x (p_time pf) (x_payload t) ->
  args_pos k' u' / 256 = args_pos k u / 256 ->
  ((exists v, tx_parse pf x (1 :: data) = Ret v) <-> (exists v, tx_parse pf x (1 :: data') = Ret v)) /\
  ((exists v, tx_parse pf x (1 :: data) = Ret v) ->
   exists lines', xreviews pf x (1 :: data) lines /\ xreviews pf x (1 :: data') lines' /\ if x then removelast lines' = removelast lines else lines' = lines).
Proof.
  intros Hh B B' L L' Bg Bg' Ep Eh Wi D CS R EX Q.
  pose proof (re_begins data' k u k' u' (proj1 Bg) (proj1 (proj2 Bg)) Bg' Ep Eh) as Bg2.
  set (ap := List.repeat (SD.Approval 1 [] []) (Z.to_nat (S.len (f_approvals u') mod 256))).
  assert (La : len ap = len (f_approvals u') mod 256).
  { unfold ap. change (@S.len) with (@zlen). unfold zlen at 1. rewrite repeat_length. pose proof (Z.mod_pos_bound (zlen (f_approvals u')) 256 ltac:(lia)). lia. }
  rewrite <- (same_at _ _ _ _ (form_unique data' _ _ _ _ ltac:(lia) Bg2 Bg')) in Q.
  pose proof (re_appears data data' k u _ _ t ap Bg Bg2 Wi D Q La) as D2.
  assert (FR : exists ls, lines = frame x t ls /\ (review (p_hash pf) x (re_counted t ap) = Some (frame x (re_counted t ap) ls) \/ bare_review (p_hash pf) x (re_counted t ap) = Some (frame x (re_counted t ap) ls))).
  { unfold review, bare_review in *. cbn [re_counted x_payload]. destruct R as [R|R]; [destruct (body_review _ _ _) as [s|]|destruct (bare_body _ _ _) as [s|]]; try discriminate R; some_inj R; eauto. }
  destruct FR as (ls & El & R2).
  pose proof (seen_yes pf x data k u t Hh B L Bg D lines) as Y1.
  pose proof (seen_yes pf x data' _ _ _ Hh B' L' Bg2 D2 (frame x (re_counted t ap) ls)) as Y2. rewrite re_payload in Y2. cbn [re_signed re_counted f_hash f_chain x_payload] in Y2.
  pose proof (seen_no pf x data k u t Hh B L Bg D) as N1.
  pose proof (seen_no pf x data' _ _ _ Hh B' L' Bg2 D2) as N2. rewrite re_payload in N2. cbn [re_signed re_counted f_hash x_payload] in N2.
  destruct (list_eqb (f_hash u) (p_hash pf (form_payload k u))) eqn:X.
  - apply list_eqb_eq in X. destruct (acceptable (x_payload t)) eqn:AC.
    + specialize (Y1 X eq_refl CS R EX). specialize (Y2 X eq_refl CS R2 EX). split.
      * destruct Y1 as (v1 & P1 & _), Y2 as (v2 & P2 & _). split; intros _; eauto.
      * intros _. eexists. split; [exact Y1|]. split; [exact Y2|]. rewrite El. apply removelast_frame; reflexivity.
    + destruct (N1 (or_intror eq_refl)) as (c1 & F1), (N2 (or_intror eq_refl)) as (c2 & F2). split; [split|]; intros (v & P); congruence.
  - assert (NQ : f_hash u <> p_hash pf (form_payload k u)) by (intros E; apply list_eqb_eq in E; congruence).
    destruct (N1 (or_introl NQ)) as (c1 & F1), (N2 (or_introl NQ)) as (c2 & F2). split; [split|]; intros (v & P); congruence.
Qed.

Lemma same_signed_seen d s tr1 e st p pre tr2 v data k u d' s' tr1' e' st' p' tr2' v' data' k' u' t lines :
  device_ok d -> reach d s (tr1 ++ (e, st, Signed p pre) :: tr2) -> pending st = Some (RTx (TV1 v)) -> flash_size d <= 65472 -> tx_data (bufs st) = 1 :: data -> begins data k u ->
  device_ok d' -> reach d' s' (tr1' ++ (e', st', Signed p' pre) :: tr2') -> pending st' = Some (RTx (TV1 v')) -> flash_size d' <= 65472 -> tx_data (bufs st') = 1 :: data' -> begins data' k' u' ->
  plat d = plat d' -> expert_mode st = expert_mode st' ->
  within k u t -> appears k u data t -> chain_shown (expert_mode st) (f_chain u) -> review (p_hash (plat d)) (expert_mode st) t = Some lines \/ bare_review (p_hash (plat d)) (expert_mode st) t = Some lines ->
  xexpert_ok (expert_mode st) (p_time (plat d)) (x_payload t) -> args_pos k' u' / 256 = args_pos k u / 256 ->
  (form_payload k u = form_payload k' u' /\
   exists lines', FormSign.on_screen d st (RTx (TV1 v)) lines /\ FormSign.on_screen d' st' (RTx (TV1 v')) lines' /\ if expert_mode st then removelast lines' = removelast lines else lines' = lines) \/
  (form_payload k u <> form_payload k' u' /\ p_hash (plat d) (form_payload k u) = p_hash (plat d) (form_payload k' u')).
Proof.
  intros D R P Fl Ed Bg D' R' P' Fl' Ed' Bg' Ep Ex In De G Rv EX Q.
  destruct (signed_form _ _ _ _ _ _ _ _ _ D R P data k u Fl Ed Bg) as [E1 E2]. destruct (signed_form _ _ _ _ _ _ _ _ _ D' R' P' data' k' u' Fl' Ed' Bg') as [E1' E2'].
  destruct (signing_data _ _ _ _ _ _ _ _ _ D R P) as (q & Eq & B & L & T & _). rewrite Ed in Eq. injection Eq as <-.
  destruct (signing_data _ _ _ _ _ _ _ _ _ D' R' P') as (q & Eq & B' & L' & T' & _). rewrite Ed' in Eq. injection Eq as <-.
  assert (Hh : hash32 (p_hash (plat d))) by apply D. rewrite <- Ep in *. rewrite <- Ex in *.
  destruct (list_eqb (form_payload k u) (form_payload k' u')) eqn:X.
  2:{ right. split; [|congruence]. intros Y. apply list_eqb_eq in Y. congruence. }
  left. apply list_eqb_eq in X. split; [exact X|].
  destruct (outside_seen (plat d) (expert_mode st) data data' k u k' u' t lines) as (_ & O); auto; try lia; try congruence.
  destruct (O (ex_intro _ _ T)) as (lines' & (a & Ta & Na1 & Ia) & (b & Tb & Nb & Ib) & El). exists lines'.
  rewrite T in Ta. injection Ta as <-. rewrite T' in Tb. injection Tb as <-.
  split; [|split; [|exact El]].
  - split; [exact Na1|]. cbn [review_item]. rewrite Ed. exact Ia.
  - split; cbn [review_count review_item]; [rewrite <- Ex; exact Nb|]. rewrite Ed', <- Ep, <- Ex. exact Ib.
Qed.

(** Tables of the same length leave the arguments where they are. *)
Lemma same_count_pos data data' k u k' u' : begins data k u -> begins data' k' u' -> zlen data' < 65472 -> form_payload k u = form_payload k' u' -> f_hash u = f_hash u' ->
  zlen (t_offs (n_top k')) = zlen (t_offs (n_top k)) -> args_pos k' u' = args_pos k u.
Proof.
  intros Bg Bg' L Ep Eh Et. pose proof (re_begins data' k u k' u' (proj1 Bg) (proj1 (proj2 Bg)) Bg' Ep Eh) as Bg2.
  rewrite <- (same_at _ _ _ _ (form_unique data' _ _ _ _ ltac:(lia) Bg2 Bg')), re_args_pos, !zlen_heading. lia.
Qed.
Lemma same_signed_count d s tr1 e st p pre tr2 v data k u d' s' tr1' e' st' p' tr2' v' data' k' u' t lines :
  device_ok d -> reach d s (tr1 ++ (e, st, Signed p pre) :: tr2) -> pending st = Some (RTx (TV1 v)) -> flash_size d <= 65472 -> tx_data (bufs st) = 1 :: data -> begins data k u ->
  device_ok d' -> reach d' s' (tr1' ++ (e', st', Signed p' pre) :: tr2') -> pending st' = Some (RTx (TV1 v')) -> flash_size d' <= 65472 -> tx_data (bufs st') = 1 :: data' -> begins data' k' u' ->
  plat d = plat d' -> expert_mode st = expert_mode st' -> S.len (t_offs (n_top k')) = S.len (t_offs (n_top k)) ->
  within k u t -> appears k u data t -> chain_shown (expert_mode st) (f_chain u) -> review (p_hash (plat d)) (expert_mode st) t = Some lines \/ bare_review (p_hash (plat d)) (expert_mode st) t = Some lines ->
  xexpert_ok (expert_mode st) (p_time (plat d)) (x_payload t) ->
  (form_payload k u = form_payload k' u' /\
   exists lines', FormSign.on_screen d st (RTx (TV1 v)) lines /\ FormSign.on_screen d' st' (RTx (TV1 v')) lines' /\ if expert_mode st then removelast lines' = removelast lines else lines' = lines) \/
  (form_payload k u <> form_payload k' u' /\ p_hash (plat d) (form_payload k u) = p_hash (plat d) (form_payload k' u')).
Proof.
  intros D R P Fl Ed Bg D' R' P' Fl' Ed' Bg' Ep Ex Et In De G Rv EX.
  destruct (signed_form _ _ _ _ _ _ _ _ _ D R P data k u Fl Ed Bg) as [E1 E2]. destruct (signed_form _ _ _ _ _ _ _ _ _ D' R' P' data' k' u' Fl' Ed' Bg') as [E1' E2'].
  destruct (signing_data _ _ _ _ _ _ _ _ _ D' R' P') as (q & Eq & B' & L' & T' & _). rewrite Ed' in Eq. injection Eq as <-.
  destruct (list_eqb (form_payload k u) (form_payload k' u')) eqn:X.
  2:{ right. split; [|congruence]. intros Y. apply list_eqb_eq in Y. congruence. }
  apply list_eqb_eq in X. eapply same_signed_seen; eauto.
  f_equal. apply (same_count_pos data data'); auto; try lia. congruence.
Qed.
Lemma outside_count pf x data data' k u k' u' t lines : hash32 (p_hash pf) -> bytes data -> bytes data' -> zlen data < 65472 -> zlen data' < 65472 ->
  begins data k u -> begins data' k' u' -> form_payload k u = form_payload k' u' -> f_hash u = f_hash u' -> S.len (t_offs (n_top k')) = S.len (t_offs (n_top k)) -> within k u t ->
  appears k u data t -> chain_shown x (f_chain u) -> review (p_hash pf) x t = Some lines \/ bare_review (p_hash pf) x t = Some lines -> xexpert_ok x (p_time pf) (x_payload t) ->
  ((exists v, tx_parse pf x (1 :: data) = Ret v) <-> (exists v, tx_parse pf x (1 :: data') = Ret v)) /\
  ((exists v, tx_parse pf x (1 :: data) = Ret v) ->
   exists lines', xreviews pf x (1 :: data) lines /\ xreviews pf x (1 :: data') lines' /\ if x then removelast lines' = removelast lines else lines' = lines).
Proof.
  intros Hh B B' L L' Bg Bg' Ep Eh Et Wi D CS R EX. eapply outside_seen; eauto. f_equal. apply (same_count_pos data data'); auto.
Qed.
