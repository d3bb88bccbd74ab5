(** Accepted bytes that are the encoding of a transaction, and their review. *)
From Verif Require Import Base Zxlib Crypto Utils RuntimeArg Deploy DeployUI TxV1 TxV1UI Parser BaseFacts Spec SpecText SpecDeploy SpecTx SpecLayout SpecRaw SpecForm Exec ArgsFacts ReaderFacts Demo Shows ReviewFacts TxFacts TxBody TxShow TxReview BindFacts BindCases SafeFacts TxInv RawFacts TxAccept ExtFacts ExtTx FormFacts.
Import S SX SL SR SF.

(** ** Right numbers *)
Lemma entries_offsets fs : forall i o, raw_entries i (offsets o fs) = entries i o fs.
Proof. induction fs as [|f fs IH]; intros i o; [reflexivity|]. cbn [offsets raw_entries entries]. rewrite IH. reflexivity. Qed.
Lemma heading_contents fs : heading (contents fs) = head fs.
Proof. unfold heading, contents, raw_head, head. cbn [t_n t_offs t_size]. rewrite entries_offsets. reflexivity. Qed.
Lemma under_contents fs : under (contents fs) fs = table fs.
Proof. unfold under, table. rewrite heading_contents. reflexivity. Qed.

Definition price_of (p : price) : pricing :=
  match p with PClassic a g f => Classic a g (f =? 1) | PFixed g f => Fixed g f | PPrepaid r => Prepaid r end.
Definition approval_of (a : approved) : SD.approval := SD.Approval (p_alg a) (p_key a) (p_sig a).

Lemma form_encoding k u : form_ok u -> strict u -> exact_numbers k u -> bytes (form_bytes k u) ->
  exists t, form_transaction t /\ form_bytes k u = enc_transaction t /\ x_hash t = f_hash u /\ enc_payload (x_payload t) = form_payload k u.
Proof.
  intros F T N B.
  assert (A : exists a, argument_bytes (f_args u) = enc_xargs a /\ Forall (fun q => supported (a_ty q) = true) (named a)).
  { destruct (f_args u) as [l|bs] eqn:E; [|exists (Raw bs); split; [reflexivity|constructor]].
    assert (Bl : bytes (args_bytes l)).
    { unfold form_bytes, under, top_fields, form_payload, under, form_fields, section in B. rewrite E in B. cbn [List.concat argument_bytes] in B.
      repeat match goal with H : bytes (_ ++ _) |- _ => apply bytes_app1 in H; destruct H | H : bytes (_ :: _) |- _ => apply bytes_cons in H end. assumption. }
    pose proof (fo_args _ F) as Fa. pose proof (sf_args _ T) as Ta. rewrite E in Fa, Ta. cbn [form_args] in Fa.
    destruct (args_classes l Bl Fa) as [(args & Ea & Za & Sa)|O].
    - exists (Named args). split; [|exact Sa]. cbn [argument_bytes enc_xargs]. unfold enc_args. change (S.len args) with (zlen args). rewrite Za, Ea. reflexivity.
    - exfalso. rewrite Exists_exists in O. destruct O as (r & In & O). rewrite Forall_forall in Ta. exact (Ta r In O). }
  destruct A as (a & Ea & Sa).
  assert (EI : under (n_initiator k) (initiator_fields (f_initiator u)) = enc_initiator (f_initiator u)).
  { rewrite (en_initiator _ _ N), under_contents. reflexivity. }
  assert (EP : under (n_price k) (price_fields (f_price u)) = enc_pricing (price_of (f_price u))).
  { rewrite (en_price _ _ N), under_contents. pose proof (sf_price _ T) as P. destruct (f_price u) as [q g f|g f|r]; [|reflexivity..].
    cbn [price_fields price_of enc_pricing]. destruct P as [-> | ->]; reflexivity. }
  assert (EV : forall r, (match f_target u with XStored _ q | Session _ q _ => q = r | Native => False end) -> under (n_runtime k) (runtime_fields r) = enc_runtime r).
  { intros r E. pose proof (en_runtime _ _ N) as R. destruct (f_target u); [contradiction| |]; subst; rewrite R, under_contents; destruct r; reflexivity. }
  assert (ET : table (target_fields k (f_target u)) = enc_xtarget (f_target u)).
  { pose proof (en_id _ _ N) as I. destruct (f_target u) as [|i r|b r w]; [reflexivity| |].
    - cbn [target_fields enc_xtarget]. rewrite EV by reflexivity. rewrite I, under_contents. destruct i; reflexivity.
    - cbn [target_fields enc_xtarget]. rewrite EV by reflexivity. reflexivity. }
  assert (EE : table (entry_fields (f_entry u)) = enc_entry (f_entry u)) by (destruct (f_entry u); reflexivity).
  assert (EA : approvals_bytes (f_approvals u) = enc_approvals (List.map approval_of (f_approvals u))).
  { unfold approvals_bytes, enc_approvals. replace (S.len (List.map approval_of (f_approvals u))) with (S.len (f_approvals u)) by (unfold S.len; rewrite map_length; reflexivity).
    f_equal. f_equal. rewrite map_map. pose proof (sf_approvals _ T) as P. induction P as [|q l Q _ IH]; [reflexivity|]. cbn [List.map]. rewrite IH. f_equal.
    unfold approved_bytes, SD.enc_approval, approval_of. cbn [SD.ap_alg SD.ap_key SD.ap_sig]. rewrite Q at 2. rewrite Q. reflexivity. }
  set (p := Payload (f_initiator u) (f_time u) (f_ttl u) (f_chain u) (price_of (f_price u)) a (f_target u) (f_entry u)).
  assert (FF : form_fields k u = payload_fields p).
  { unfold form_fields, payload_fields. cbn [p x_initiator x_time x_ttl x_chain x_pricing]. rewrite EI, EP. do 5 f_equal. f_equal.
    unfold enc_fields, section. cbn [p x_args x_target x_entry]. rewrite (en_args _ _ N), (en_target _ _ N), (en_entry _ _ N), (en_sched _ _ N). cbv zeta. cbn [fst snd].
    rewrite !under_contents, ET, EE, Ea. unfold lv. change (@S.len Z) with (@zlen Z). rewrite <- !app_assoc. reflexivity. }
  assert (FP : form_payload k u = enc_payload p).
  { unfold form_payload, enc_payload. rewrite (en_payload _ _ N), under_contents, FF. reflexivity. }
  exists (Transaction (f_hash u) p (List.map approval_of (f_approvals u))). split; [|split; [|split; [reflexivity|symmetry; exact FP]]].
  - destruct F. constructor; cbn [x_hash x_payload x_approvals p x_initiator x_time x_ttl x_pricing x_args x_target x_entry]; auto.
    + pose proof (sf_initiator _ T) as I. destruct (f_initiator u) as [alg key|h]; [|assumption]. cbn [form_initiator good_initiator] in *.
      unfold any_key in fo_initiator0. destruct fo_initiator0 as [[-> _]|[[-> L]|[-> L]]]; [congruence|split; [auto|exact L]|split; [auto|exact L]].
    + destruct (f_price u); cbn [price_of good_pricing form_price] in *; tauto.
    + apply Forall_forall. intros q In. apply in_map_iff in In. destruct In as (w & <- & In). pose proof (sf_approvals _ T) as P.
      rewrite Forall_forall in P, fo_approvals0. specialize (P w In). destruct (fo_approvals0 w In) as (AK & SG & L). unfold SD.good_approval, approval_of. cbn [SD.ap_alg SD.ap_key SD.ap_sig].
      rewrite P in *. split; [exact SG|]. split; [|exact L]. destruct AK as [[Z _]|[[Z L']|[Z L']]]; rewrite Z in *; [lia|exact L'|exact L'].
  - unfold form_bytes, enc_transaction. cbn [x_hash x_payload x_approvals]. rewrite (en_top _ _ N), under_contents. unfold top_fields. rewrite FP, EA. reflexivity.
Qed.

(** ** Any bytes behind a transaction *)
Lemma v1_trailing pf x t lines r : hash32 (p_hash pf) -> good_transaction (p_hash pf) t ->
  review (p_hash pf) x t = Some lines \/ bare_review (p_hash pf) x t = Some lines ->
  xexpert_ok x (p_time pf) (x_payload t) -> before_args t < 256 -> zlen (enc_transaction t ++ r) < 65535 ->
  xreviews pf x (1 :: enc_transaction t ++ r) lines.
Proof.
  intros Hh G RV EX L Z.
  assert (V : xreviews pf x (enc_v1 t) lines) by (destruct RV; [eapply v1_review | eapply v1_bare]; eauto).
  assert (FR : exists s, lines = frame x t s).
  { unfold review, bare_review in RV. destruct RV as [RV|RV]; [destruct (body_review _ _ _) as [s|]|destruct (bare_body _ _ _) as [s|]]; try discriminate RV; injection RV as <-; eauto. }
  destruct FR as (s & ->). destruct V as (w & P & Nm & D).
  assert (exists v, w = TV1 v) as (v & ->).
  { unfold enc_v1 in P. assert (zlen (enc_transaction t) < 65535) as Zt by (rewrite zlen_app in Z; pose proof (zlen_nonneg r); lia).
    destruct (accept_inv _ _ _ _ _ Zt P) as (_ & o1 & o2 & its & o3 & u0 & PC & _). destruct w as [d|v]; [|eauto].
    exfalso. unfold parse_content in PC. change (1 =? content_Deploy) with false in PC. cbv iota in PC. 
    destruct (1 =? content_TransactionV1); [|discriminate PC]. bx PC q o R. apply ret_inv in PC. destruct PC. discriminate. }
  unfold enc_v1 in P. destruct (v1_more pf x (enc_transaction t) r v Z P) as [P' I'].
  - intros idx it Fe E Q. unfold fee_screen in Fe. destruct x; [|discriminate Fe]. cbn [andb] in Fe.
    assert (X : exists i l, idx = Z.of_nat i /\ nth_error (frame true t s) i = Some l /\ In l (pricing_lines (x_pricing (x_payload t)))).
    { unfold frame. cbv zeta. apply orb_true_iff in Fe. destruct Fe as [Fe|Fe]; apply Z.eqb_eq in Fe; [exists 6%nat|exists 7%nat];
        destruct (x_pricing (x_payload t)); cbn [pricing_lines app nth_error]; eexists; (split; [exact Fe|split; [reflexivity|cbn [In]; auto]]). }
    destruct X as (i & l & -> & Nl & Il). destruct (D i l Nl 40) as (it' & E' & _ & Rl). unfold enc_v1 in E'. rewrite E in E'. injection E' as <-.
    rewrite Q in Rl. destruct (x_pricing (x_payload t)); cbn [pricing_lines In] in Il; destruct Il as [<-|[<-|[]]]; cbn [snd xrenders renders xl] in Rl;
      first [destruct Rl as (? & _ & Rl); discriminate Rl | discriminate Rl].
  - exists (TV1 v). split; [exact P'|]. split; [exact Nm|]. intros i l Nl kl. destruct (D i l Nl kl) as (it & E & Sh).
    exists it. split; [|exact Sh]. apply I'; [lia|exact E].
Qed.

(** ** Together *)
Lemma form_shown pf x data v : hash32 (p_hash pf) -> bytes data -> zlen data < 65472 -> no_leap data ->
  tx_parse pf x (1 :: data) = Ret (TV1 v) ->
  exists k u rest cut, data ++ cut = form_bytes k u ++ rest /\ (cut = [] \/ rest = []) /\ missing (f_approvals u) cut /\
    form_ok u /\ numbers_ok k u /\ f_hash u = p_hash pf (form_payload k u) /\
    (cut = [] -> exact_numbers k u -> strict u ->
     exists t, data = enc_transaction t ++ rest /\ form_transaction t /\ x_hash t = p_hash pf (enc_payload (x_payload t)) /\
       forall lines, good_transaction (p_hash pf) t -> review (p_hash pf) x t = Some lines \/ bare_review (p_hash pf) x t = Some lines ->
       xexpert_ok x (p_time pf) (x_payload t) -> before_args t < 256 -> xreviews pf x (1 :: data) lines).
Proof.
  intros Hh B L NL H. destruct (form_accepted pf x data v Hh B L NL H) as (k & u & rest & cut & E & D & Z & F & N & HV).
  exists k, u, rest, cut. do 6 (split; [assumption|]). intros -> X T. rewrite app_nil_r in E.
  assert (Bf : bytes (form_bytes k u)) by (rewrite E in B; apply bytes_app1 in B; apply B).
  destruct (form_encoding k u F T X Bf) as (t & Ft & Et & Eh & Ep). exists t. rewrite Et in E.
  split; [exact E|]. split; [exact Ft|]. split; [rewrite Eh, Ep; exact HV|].
  intros lines G RV EX Ba. rewrite E. apply v1_trailing; auto. rewrite <- E. lia.
Qed.
