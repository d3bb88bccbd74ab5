(** Accepted bytes whose reviews agree. *)
From Verif Require Import Base Zxlib Crypto Utils RuntimeArg Deploy DeployUI TxV1 TxV1UI Parser App BaseFacts Spec SpecText SpecDeploy SpecTx SpecLayout SpecRaw SpecForm SpecShow SpecLook SpecApp Exec ArgsFacts ReaderFacts TextFacts Demo Shows DeployArgs SessionFacts ReviewFacts DeployCases TxFacts TxBody TxShow TxReview LookFacts LookTx RawFacts RawShow FormFacts FormUnique FormReview FormArgs FormAccept AppFacts AppHist AppClaims AppSign FormSign DeploySign.
Import S ST SD SX SL SR SF SW SK.

(** * TransactionV1 *)
(** What is shown of a form in a buffer are bytes. *)
Lemma form_displayed data k u t : bytes data -> begins data k u -> depicts k u data t -> displayed t.
Proof.
  intros B Bg De. pose proof (args_in data k u) as AI. destruct (begins_core _ _ _ Bg) as (m & Ed). pose proof B as B0. rewrite Ed in B0.
  unfold core, form_payload, under, form_fields in B0. cbn [List.concat] in B0. rewrite !bytes_app in B0.
  unfold under in B0. rewrite !bytes_app in B0.
  assert (BI : bytes (List.concat (initiator_fields (f_initiator u)))) by tauto. assert (BP : bytes (List.concat (price_fields (f_price u)))) by tauto. clear B0. pose proof (proj1 Bg) as Fo.
  constructor.
  - rewrite (de_initiator _ _ _ _ De). pose proof (fo_initiator _ Fo) as I. destruct (f_initiator u) as [g key|h]; [|exact I].
    destruct I as [[_ ->]|[[_ L]|[_ L]]]; [cbn; lia|rewrite L; lia..].
  - rewrite (de_initiator _ _ _ _ De). unfold initiator_fields in BI. cbn [List.concat] in BI. rewrite !bytes_app in BI. tauto.
  - intros r E. pose proof (de_pricing _ _ _ _ De) as P. rewrite E in P. destruct (f_price u) as [? ? ?|? ?|r']; try contradiction P. cbn [same_price] in P. subst r'.
    cbn [price_fields List.concat] in BP. rewrite !bytes_app in BP. tauto.
  - intros n a E I. pose proof (de_args _ _ _ _ De) as A. rewrite <- (de_entry _ _ _ _ De), E in A. destruct A as (l & El & Ea). rewrite El in I. cbn [named] in I.
    specialize (AI _ B Bg Ea). clear - AI I. unfold args_bytes in AI.
    induction l as [|b l IH]; [contradiction I|]. cbn [List.map List.concat] in AI. rewrite bytes_app in AI. destruct AI as [A1 A2].
    destruct I as [->|I]; [|auto]. unfold raw_bytes, raw_of, lv in A1. cbn [r_name r_val r_ty] in A1. rewrite !bytes_app in A1. tauto.
Qed.
(** The review of accepted bytes (C72, without a condition on lengths). *)
Lemma accepted_lines pf x data k u t v lines : hash32 (p_hash pf) -> bytes data -> zlen data < 65472 -> begins data k u -> depicts k u data t -> presentable t -> args_pos k u < 256 ->
  tx_parse pf x (1 :: data) = Ret v -> review (p_hash pf) x t = Some lines \/ bare_review (p_hash pf) x t = Some lines -> xexpert_ok x (p_time pf) (x_payload t) ->
  xreviews pf x (1 :: data) lines.
Proof.
  intros Hh B L Bg De G AP T Rv EX. apply (verdict_yes pf x data k u t); auto.
  - destruct (list_eqb (f_hash u) (p_hash pf (form_payload k u))) eqn:X; [apply list_eqb_eq; exact X|].
    exfalso. apply (verdict_hash pf x data k u v Hh B L Bg); [|exact T]. intros Y. apply list_eqb_eq in Y. congruence.
  - destruct (acceptable (x_payload t)) eqn:X; [reflexivity|]. destruct (verdict_no pf x data k u t Hh B L Bg De G AP (or_intror X)) as (c & F). congruence.
Qed.
Lemma forms_alike pf x data k u t data' k' u' t' la lb : hash32 (p_hash pf) ->
  bytes data -> zlen data < 65472 -> begins data k u -> depicts k u data t -> presentable t -> args_pos k u < 256 -> xexpert_ok x (p_time pf) (x_payload t) ->
  bytes data' -> zlen data' < 65472 -> begins data' k' u' -> depicts k' u' data' t' -> presentable t' -> args_pos k' u' < 256 -> xexpert_ok x (p_time pf) (x_payload t') ->
  look_alike pf x (1 :: data) (1 :: data') ->
  (review (p_hash pf) x t = Some la -> review (p_hash pf) x t' = Some lb -> same_frame (p_time pf) x t t' /\ same_deed (p_hash pf) x (x_payload t) (x_payload t')) /\
  (bare_review (p_hash pf) x t = Some la -> bare_review (p_hash pf) x t' = Some lb -> same_frame (p_time pf) x t t' /\ same_session (p_hash pf) x (x_payload t) (x_payload t')).
Proof.
  intros Hh B L Bg De G AP EX B' L' Bg' De' G' AP' EX' AL. destruct AL as (ta & tb & Ta & Tb & N & I).
  assert (AL : look_alike pf x (1 :: data) (1 :: data')) by (exists ta, tb; auto).
  pose proof (form_displayed _ _ _ _ B Bg De) as Da. pose proof (form_displayed _ _ _ _ B' Bg' De') as Db.
  split; intros Ra Rb.
  - apply (reviews_alike pf x (1 :: data) (1 :: data') t t' la lb); auto; [apply (accepted_lines pf x data k u t ta)|apply (accepted_lines pf x data' k' u' t' tb)]; auto.
  - apply (bares_alike pf x (1 :: data) (1 :: data') t t' la lb); auto; [apply (accepted_lines pf x data k u t ta)|apply (accepted_lines pf x data' k' u' t' tb)]; auto.
Qed.

(** * Deploys *)
Lemma lines_alike pf x da db la lb A B : reviews pf x da (la :: A) -> reviews pf x db (lb :: B) -> Forall2 (same_line (p_hash pf) (p_time pf)) A B -> look_alike pf x da db.
Proof.
  intros (ta & Pa & Na & Da) (tb & Pb & Nb & Db) F. exists ta, tb. rewrite zlen_cons in Na, Nb. pose proof (LookFacts.Forall2_length _ _ _ F) as LF.
  split; [exact Pa|]. split; [exact Pb|]. split; [unfold zlen in *; lia|]. intros i Hi.
  assert (X : exists k, i = Z.of_nat (Datatypes.S k)) by (exists (Z.to_nat (i - 1)); lia). destruct X as (k & ->).
  destruct (nth_error A k) as [a|] eqn:Ea; [|apply nth_error_None in Ea; unfold zlen in Na; lia].
  destruct (nth_error B k) as [b|] eqn:Eb; [|apply nth_error_None in Eb; unfold zlen in Na; lia].
  assert (SL : same_line (p_hash pf) (p_time pf) a b).
  { clear - F Ea Eb. revert k Ea Eb. induction F as [|y z l m R F IH]; intros [|k] Ea Eb; try discriminate Ea; cbn in *; [congruence|eauto]. }
  destruct (Da (Datatypes.S k) a Ea 40) as ([ka va] & Ga & Ka & Ra). destruct (Db (Datatypes.S k) b Eb 40) as ([kb vb] & Gb & Kb & Rb).
  destruct SL as (E & d & R1 & R2). rewrite Ga, Gb. cbn [ikey ival] in *. rewrite (renders_fun _ _ _ _ _ Ra R1), (renders_fun _ _ _ _ _ Rb R2). congruence.
Qed.
(** A deploy in accepted bytes, without approvals. *)
Lemma sealed_good H h p i r : hash32 H -> good_header h -> S.len (p_amount p) <= 64 -> good_session i -> h_bodyhash h = H (enc_payment p ++ enc_session i) ->
  bytes (signed_deploy H h p i ++ r) -> zlen (signed_deploy H h p i ++ r) < 65531 -> good_deploy H (sealed H h p i).
Proof.
  intros Hh G Pa Gs Hb B L. unfold signed_deploy in *. apply bytes_app in B. destruct B as [B _]. rewrite zlen_app in L. pose proof (zlen_nonneg r).
  assert (E : enc_deploy (sealed H h p i) = (enc_header h ++ H (enc_header h) ++ enc_payment p ++ enc_session i) ++ le 4 0).
  { unfold enc_deploy, enc_body, sealed. cbn [d_header d_hash d_payment d_session d_approvals List.map List.concat]. rewrite <- !app_assoc. reflexivity. }
  constructor; cbn [sealed d_header d_hash d_payment d_session d_approvals]; auto.
  - apply Hh.
  - cbn; lia.
  - change (bytes (enc_deploy (sealed H h p i))). rewrite E. apply bytes_app. split; [exact B|]. repeat constructor; lia.
  - unfold enc_tx. change (zlen (0 :: enc_deploy (sealed H h p i)) < 65536). rewrite zlen_cons, E, zlen_app, le_length. change (Z.of_nat 4) with 4. lia.
Qed.
Lemma sealed_alike pf x h p i r n sl h' p' i' r' n' sl' : hash32 (p_hash pf) ->
  good_header h -> S.len (p_amount p) <= 64 -> good_session i -> h_bodyhash h = p_hash pf (enc_payment p ++ enc_session i) -> trailing x i n r ->
  bytes (signed_deploy (p_hash pf) h p i ++ r) -> zlen (signed_deploy (p_hash pf) h p i ++ r) < 65531 -> session_review (p_hash pf) x i = Some sl -> expert_ok x (p_time pf) h ->
  good_header h' -> S.len (p_amount p') <= 64 -> good_session i' -> h_bodyhash h' = p_hash pf (enc_payment p' ++ enc_session i') -> trailing x i' n' r' ->
  bytes (signed_deploy (p_hash pf) h' p' i' ++ r') -> zlen (signed_deploy (p_hash pf) h' p' i' ++ r') < 65531 -> session_review (p_hash pf) x i' = Some sl' -> expert_ok x (p_time pf) h' ->
  look_alike pf x (0 :: signed_deploy (p_hash pf) h p i ++ r) (0 :: signed_deploy (p_hash pf) h' p' i' ++ r') ->
  look_alike pf x (enc_tx (sealed (p_hash pf) h p i)) (enc_tx (sealed (p_hash pf) h' p' i')) /\ (x = true -> n = n').
Proof.
  intros Hh G Pa Gs Hb Tr B L Rv EX G' Pa' Gs' Hb' Tr' B' L' Rv' EX' AL. set (a := sealed (p_hash pf) h p i) in *. set (b := sealed (p_hash pf) h' p' i') in *.
  pose proof (sealed_good _ _ _ _ _ Hh G Pa Gs Hb B L) as Ga. pose proof (sealed_good _ _ _ _ _ Hh G' Pa' Gs' Hb' B' L') as Gb. fold a in Ga. fold b in Gb.
  unfold signed_deploy in *. rewrite <- !app_assoc in *.
  pose proof (shown_sealed pf x h p i n r sl Hh G Pa Gs Hb Tr B ltac:(lia) Rv EX) as Va. fold a in Va.
  pose proof (shown_sealed pf x h' p' i' n' r' sl' Hh G' Pa' Gs' Hb' Tr' B' ltac:(lia) Rv' EX') as Vb. fold b in Vb.
  assert (Ra : reviews pf x (enc_tx a) (around x a sl)) by (apply deploy_review; auto; unfold SD.review, a; cbn [sealed d_session]; rewrite Rv; reflexivity).
  assert (Rb : reviews pf x (enc_tx b) (around x b sl')) by (apply deploy_review; auto; unfold SD.review, b; cbn [sealed d_session]; rewrite Rv'; reflexivity).
  assert (Sp : forall d m s, exists y, around_n x d m s = ln "Txn hash" (Hex (d_hash d)) :: y ++ (if x then [ln "Approvals #" (Number m)] else []) /\
              around x d s = ln "Txn hash" (Hex (d_hash d)) :: y ++ (if x then [ln "Approvals #" (Number (S.len (d_approvals d)))] else [])).
  { intros d m s. unfold around_n, around. destruct x.
    - exists ((tl (removelast (around_n true d m []))) ++ s). split; cbn [around_n app removelast tl]; reflexivity.
    - exists ((tl (around_n false d m [])) ++ s). split; cbn [around_n app tl]; rewrite app_nil_r; reflexivity. }
  destruct (Sp a n sl) as (ya & Ea & Fa). destruct (Sp b n' sl') as (yb & Eb & Fb). rewrite Ea in Va. rewrite Eb in Vb. rewrite Fa in Ra. rewrite Fb in Rb.
  pose proof (alike_lines _ _ _ _ _ _ _ _ Va Vb AL) as F.
  apply LookFacts.Forall2_suffix in F; [|destruct x; reflexivity]. destruct F as [F1 F2]. split.
  - eapply lines_alike; [exact Ra|exact Rb|]. apply Forall2_app; [exact F1|]. destruct x; [|constructor]. constructor; [|constructor].
    split; [reflexivity|]. cbn [snd ln a b sealed d_approvals]. exists (VPaged (text "0")). assert (R : renders (p_hash pf) (p_time pf) (Number 0) (VPaged (text "0"))).
    { exists (text "0"). split; [|reflexivity]. split; [discriminate|]. split; [constructor; [unfold digit; cbn; lia|constructor]|]. split; reflexivity. }
    split; exact R.
  - intros ->. inversion F2 as [|? ? ? ? E _]; subst. apply line_eq in E; [|exact I..]. congruence.
Qed.

Lemma deploys_look_alike pf x h p i r n sl h' p' i' r' n' sl' : hash32 (p_hash pf) ->
  good_header h -> S.len (p_amount p) <= 64 -> good_session i -> h_bodyhash h = p_hash pf (enc_payment p ++ enc_session i) -> trailing x i n r ->
  bytes (signed_deploy (p_hash pf) h p i ++ r) -> zlen (signed_deploy (p_hash pf) h p i ++ r) < 65531 -> session_review (p_hash pf) x i = Some sl -> expert_ok x (p_time pf) h ->
  good_header h' -> S.len (p_amount p') <= 64 -> good_session i' -> h_bodyhash h' = p_hash pf (enc_payment p' ++ enc_session i') -> trailing x i' n' r' ->
  bytes (signed_deploy (p_hash pf) h' p' i' ++ r') -> zlen (signed_deploy (p_hash pf) h' p' i' ++ r') < 65531 -> session_review (p_hash pf) x i' = Some sl' -> expert_ok x (p_time pf) h' ->
  look_alike pf x (0 :: signed_deploy (p_hash pf) h p i ++ r) (0 :: signed_deploy (p_hash pf) h' p' i' ++ r') ->
  let a := sealed (p_hash pf) h p i in let b := sealed (p_hash pf) h' p' i' in
  same_context (p_time pf) x a b /\ text (type_text i) = text (type_text i') /\ (x = true -> n = n') /\
  (forall sa ta ma ia sb tb mb ib, transfers a sa ta ma ia -> transfers b sb tb mb ib -> kin ta tb -> kin_opt sa sb ->
     ta = tb /\ ma = mb /\ (x = true -> ia = ib /\ sa = sb)) /\
  (forall oa da va wa ma ob db vb wb mb, delegates a oa da va wa ma -> delegates b ob db vb wb mb ->
     oa = ob /\ da = db /\ va = vb /\ (oa = ORedelegate -> wa = wb) /\ ma = mb) /\
  (x = true -> forall t ep l t' ep' l', i = Stored t ep l -> i' = Stored t' ep' l' -> same_target t t' /\ ep = ep').
Proof.
  intros Hh G Pa Gs Hb Tr B L Rv EX G' Pa' Gs' Hb' Tr' B' L' Rv' EX' AL a b.
  pose proof (sealed_good _ _ _ _ _ Hh G Pa Gs Hb B L) as Ga. pose proof (sealed_good _ _ _ _ _ Hh G' Pa' Gs' Hb' B' L') as Gb. fold a in Ga. fold b in Gb.
  destruct (sealed_alike pf x h p i r n sl h' p' i' r' n' sl' Hh G Pa Gs Hb Tr B L Rv EX G' Pa' Gs' Hb' Tr' B' L' Rv' EX' AL) as [AL2 En]. fold a b in AL2.
  assert (Sa : SD.review (p_hash pf) x a = Some (around x a sl)) by (unfold SD.review, a; cbn [sealed d_session]; rewrite Rv; reflexivity).
  assert (Sb : SD.review (p_hash pf) x b = Some (around x b sl')) by (unfold SD.review, b; cbn [sealed d_session]; rewrite Rv'; reflexivity).
  pose proof (deploy_review pf x a _ Hh Ga Sa EX) as Ra. pose proof (deploy_review pf x b _ Hh Gb Sb EX') as Rb.
  destruct (deploys_alike pf x a b sl sl' Ga Gb Ra Rb AL2) as (SC & TT & _).
  split; [exact SC|]. split; [exact TT|]. split; [exact En|]. split; [|split].
  - intros sa ta ma ia sb tb mb ib Ta Tb K1 K2. exact (proj2 (transfers_alike pf x a b sa ta ma ia sb tb mb ib Hh Ga Gb EX EX' Ta Tb K1 K2 AL2)).
  - intros oa da va wa ma ob db vb wb mb Da Db. exact (proj2 (delegations_alike pf x a b oa da va wa ma ob db vb wb mb Hh Ga Gb EX EX' Da Db AL2)).
  - intros -> t ep l t' ep' l' Ei Ei'. exact (calls_alike pf a b t ep l t' ep' l' _ _ Hh Ga Gb EX EX' Ei Ei' Sa Sb AL2).
Qed.

(** * Screens *)
Lemma screens_alike d st tr r d' st' tr' r' : device_ok d -> reach d st tr -> pending st = Some (RTx r) -> device_ok d' -> reach d' st' tr' -> pending st' = Some (RTx r') ->
  plat d = plat d' -> expert_mode st = expert_mode st' ->
  review_count st (RTx r) = review_count st' (RTx r') ->
  (forall i, 0 < i < review_count st (RTx r) -> review_item d st (RTx r) 40 i = review_item d' st' (RTx r') 40 i) ->
  look_alike (plat d) (expert_mode st) (tx_data (bufs st)) (tx_data (bufs st')).
Proof.
  intros D R P D' R' P' Ep Ex N I.
  destruct (review_state _ _ _ _ D R P) as (tr0 & bs & st0 & R0 & Ps & A & _). pose proof (act_opens _ _ _ _ _ _ A Ps P) as (_ & _ & _ & _ & _ & T & _).
  destruct (review_state _ _ _ _ D' R' P') as (tr0' & bs' & st0' & R0' & Ps' & A' & _). pose proof (act_opens _ _ _ _ _ _ A' Ps' P') as (_ & _ & _ & _ & _ & T' & _).
  exists r, r'. split; [exact T|]. split; [rewrite Ep, Ex; exact T'|]. cbn [review_count review_item] in *. rewrite <- Ep, <- Ex in *. auto.
Qed.
