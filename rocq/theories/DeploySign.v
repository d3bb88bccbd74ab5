(** What the signature of a deploy stands for, in any history. *)
From Verif Require Import Base Zxlib Crypto Utils RuntimeArg Deploy DeployUI TxV1 TxV1UI Parser App BaseFacts Spec SpecText SpecDeploy SpecLayout SpecRaw SpecApp Exec Demo ReaderFacts TextFacts Shows DeployArgs SessionFacts ReviewFacts RangeFacts BindFacts BindCases RawFacts RawShow AppFacts AppHist AppClaims AppSign.
Import S ST SD SL SR.

(** The review on screen has these lines. *)
Definition screen_shows (d : device) (st : App.app) (r : App.review) (lines : list line) : Prop :=
  review_count st r = zlen lines /\
  forall i l, nth_error lines i = Some l -> forall kl, exists it, review_item d st r kl (Z.of_nat i) = Ret it /\ shows (p_hash (plat d)) (p_time (plat d)) l it.
Definition signed_deploy (H : list Z -> list Z) (h : header) (p : payment) (i : session) : list Z :=
  enc_header h ++ H (enc_header h) ++ enc_payment p ++ enc_session i.

Lemma head_eq (a b c e : list Z) : a ++ b = c ++ e -> zlen a = zlen c -> a = c /\ b = e.
Proof.
  intros E L. unfold zlen in L. split; [apply (f_equal (firstn (List.length a))) in E|apply (f_equal (skipn (List.length a))) in E].
  - rewrite firstn_app, firstn_all, Nat.sub_diag in E. replace (List.length a) with (List.length c) in E by lia. rewrite firstn_app, firstn_all, Nat.sub_diag in E. cbn [firstn] in E. rewrite !app_nil_r in E. exact E.
  - rewrite skipn_app, skipn_all, Nat.sub_diag in E. replace (List.length a) with (List.length c) in E by lia. rewrite skipn_app, skipn_all, Nat.sub_diag in E. exact E.
Qed.

Section Signing.
Variables (d : device) (s : App.app) (tr1 : list AppFacts.entry) (e : event) (st : App.app) (q pre : list Z) (tr2 : list AppFacts.entry) (v : Deploy.deploy).
Hypotheses (D : device_ok d) (R : reach d s (tr1 ++ (e, st, Signed q pre) :: tr2)) (P : pending st = Some (RTx (TDeploy v))).

Lemma deploy_data : exists data, tx_data (bufs st) = 0 :: data /\ bytes data /\ zlen data < 65535 /\
  tx_parse (plat d) (expert_mode st) (0 :: data) = Ret (TDeploy v) /\ slice data (header_length_deploy (dheader v)) 32 = Some pre.
Proof.
  destruct (reach_at _ _ _ _ _ _ _ R) as (R1 & _ & st' & E & _). pose proof (reach_buf _ _ _ D R1) as B.
  destruct (signed_step _ _ _ _ _ _ D B E) as (_ & _ & Sg & _). destruct (tx_sign _ _ _ _ _ _ D R1 P Sg) as (k & rest & Ed & -> & Sl).
  destruct (review_state _ _ _ _ D R1 P) as (tr0 & bs & st0 & R0 & Ps & A & _). pose proof (act_opens _ _ _ _ _ _ A Ps P) as (_ & _ & _ & _ & _ & T & _).
  destruct (reach_data _ _ _ D R1) as [Bd L]. rewrite Ed in *. exists rest. split; [reflexivity|]. split; [inversion Bd; assumption|].
  split; [rewrite zlen_cons in L; lia|]. auto.
Qed.

Lemma deploy_screen h p i r n sl : tx_data (bufs st) = 0 :: signed_deploy (p_hash (plat d)) h p i ++ r ->
  good_header h -> len (p_amount p) <= 64 -> good_session i -> h_bodyhash h = p_hash (plat d) (enc_payment p ++ enc_session i) -> trailing (expert_mode st) i n r ->
  session_review (p_hash (plat d)) (expert_mode st) i = Some sl -> expert_ok (expert_mode st) (p_time (plat d)) h ->
  pre = p_hash (plat d) (enc_header h) /\ screen_shows d st (RTx (TDeploy v)) (around_n (expert_mode st) (sealed (p_hash (plat d)) h p i) n sl).
Proof.
  intros Ed G Pa Gs Hb Tr Rv EX. destruct deploy_data as (data & Ed' & B & L & T & Sl).
  assert (Ew : data = signed_deploy (p_hash (plat d)) h p i ++ r) by congruence. clear Ed. unfold signed_deploy in Ew. rewrite <- !app_assoc in Ew. rewrite Ew in *. assert (Hh : hash32 (p_hash (plat d))) by apply D.
  pose proof (shown_sealed (plat d) (expert_mode st) h p i n r sl Hh G Pa Gs Hb Tr B L Rv EX) as (t & T' & N & I). rewrite T in T'. injection T' as <-.
  split.
  - destruct (I 0%nat _ eq_refl 40) as (it & Gi & Sh). rewrite (hash_item _ _ _ _ _ pre Hh B L T Sl) in Gi. injection Gi as <-. destruct Sh as [_ Sh]. cbn in Sh. injection Sh as Sh.
    eapply cep57_inj; [| |exact Sh]; [eapply slice_bytes; eauto|apply Hh].
  - split; [exact N|]. cbn [review_item]. rewrite Ed'. exact I.
Qed.
End Signing.

(** Two signatures of the same bytes. *)
Lemma same_deploys d s tr1 e st q pre tr2 v d' s' tr1' e' st' q' tr2' v' data' h p i r n sl :
  device_ok d -> reach d s (tr1 ++ (e, st, Signed q pre) :: tr2) -> pending st = Some (RTx (TDeploy v)) -> tx_data (bufs st) = 0 :: signed_deploy (p_hash (plat d)) h p i ++ r ->
  device_ok d' -> reach d' s' (tr1' ++ (e', st', Signed q' pre) :: tr2') -> pending st' = Some (RTx (TDeploy v')) -> tx_data (bufs st') = 0 :: data' ->
  plat d = plat d' -> expert_mode st = expert_mode st' ->
  good_header h -> len (p_amount p) <= 64 -> good_session i -> h_bodyhash h = p_hash (plat d) (enc_payment p ++ enc_session i) -> trailing (expert_mode st) i n r ->
  session_review (p_hash (plat d)) (expert_mode st) i = Some sl -> expert_ok (expert_mode st) (p_time (plat d)) h ->
  (exists r', data' = signed_deploy (p_hash (plat d)) h p i ++ r' /\
     screen_shows d st (RTx (TDeploy v)) (around_n (expert_mode st) (sealed (p_hash (plat d)) h p i) n sl) /\
     forall n', trailing (expert_mode st) i n' r' -> screen_shows d' st' (RTx (TDeploy v')) (around_n (expert_mode st) (sealed (p_hash (plat d)) h p i) n' sl)) \/
  (exists a b, (exists x y, data' = x ++ b ++ y) /\ (a = enc_header h \/ a = enc_payment p ++ enc_session i) /\ a <> b /\ p_hash (plat d) a = p_hash (plat d) b).
Proof.
  intros D R P Ed D' R' P' Ed' Ep Ex G Pa Gs Hb Tr Rv EX.
  destruct (deploy_screen _ _ _ _ _ _ _ _ _ D R P h p i r n sl Ed G Pa Gs Hb Tr Rv EX) as [E1 Sc].
  destruct (deploy_data _ _ _ _ _ _ _ _ _ D' R' P') as (q0 & Eq & B' & L' & T' & Sl'). assert (q0 = data') by congruence. subst q0.
  assert (Hh : hash32 (p_hash (plat d))) by apply D. rewrite <- Ep, <- Ex in *.
  destruct (hashes_checked _ _ _ _ Hh B' L' T') as (hdr & dh & body & rest & alg & key & f24 & bh & post & Eh & Ld & Hd & Ef & Ak & Lf & Lb & Hbd & _ & Lh & _).
  assert (Edh : dh = pre).
  { rewrite <- Lh, Eh in Sl'. pose proof (slice_mid hdr dh (body ++ rest)) as M. rewrite Ld in M. congruence. }
  destruct (list_eqb hdr (enc_header h)) eqn:X.
  2:{ right. exists (enc_header h), hdr. split; [exists [], (dh ++ body ++ rest); exact Eh|]. split; [auto|]. split; [|congruence].
      intros Y. symmetry in Y. apply list_eqb_eq in Y. congruence. }
  apply list_eqb_eq in X. rewrite X in *. clear X.
  assert (Ebh : bh = h_bodyhash h).
  { rewrite Eh in Ef. unfold enc_header in Ef. rewrite <- !app_assoc in Ef. destruct (head_eq [h_alg h] _ [alg] _ Ef eq_refl) as [Ea Ef1]. assert (Ea' : h_alg h = alg) by congruence. destruct G as [ga gk gt gl gg gb _].
    assert (Lk : zlen (h_key h) = zlen key).
    { change (S.len (h_key h)) with (zlen (h_key h)) in gk. rewrite gk. unfold key_len. destruct Ak as [[-> K]|[-> K]]; rewrite Ea', K; reflexivity. }
    destruct (head_eq _ _ _ _ Ef1 Lk) as [_ Ef2].
    assert (L24 : zlen (le 8 (h_time h) ++ le 8 (h_ttl h) ++ le 8 (h_gas h)) = zlen f24) by (rewrite Lf, !zlen_app, !le_length; reflexivity).
    assert (Ef3 : (le 8 (h_time h) ++ le 8 (h_ttl h) ++ le 8 (h_gas h)) ++ h_bodyhash h ++ (le 4 (len (h_deps h)) ++ List.concat (h_deps h) ++ lv (h_chain h) ++ dh ++ body ++ rest) = f24 ++ bh ++ post) by (rewrite <- Ef2, <- !app_assoc; reflexivity).
    destruct (head_eq _ _ _ _ Ef3 L24) as [_ Ef4]. destruct (head_eq _ _ _ _ Ef4) as [Eb _]; [change (S.len (h_bodyhash h)) with (zlen (h_bodyhash h)) in gb; lia|]. congruence. }
  destruct (list_eqb body (enc_payment p ++ enc_session i)) eqn:X.
  2:{ right. exists (enc_payment p ++ enc_session i), body. split; [exists (enc_header h ++ dh), rest; rewrite Eh, <- !app_assoc; reflexivity|]. split; [auto|]. split; [|congruence].
      intros Y. symmetry in Y. apply list_eqb_eq in Y. congruence. }
  apply list_eqb_eq in X. left. exists rest. assert (Es : data' = signed_deploy (p_hash (plat d)) h p i ++ rest).
  { rewrite Eh, X, <- Hd. unfold signed_deploy. rewrite <- !app_assoc. reflexivity. }
  split; [exact Es|]. split; [exact Sc|]. intros n' Tr'.
  rewrite Es in Ed'. rewrite Ep, Ex in *. exact (proj2 (deploy_screen _ _ _ _ _ _ _ _ _ D' R' P' h p i rest n' sl Ed' G Pa Gs Hb Tr' Rv EX)).
Qed.
