(** The review of accepted bytes from the form of the transaction in them. *)
From Verif Require Import Base Zxlib Crypto Utils RuntimeArg Deploy DeployUI TxV1 TxV1UI Parser BaseFacts Spec SpecText SpecDeploy SpecTx SpecLayout SpecRaw SpecForm SpecShow Exec ArgsFacts ReaderFacts TextFacts Demo Shows DeployArgs SessionFacts ReviewFacts TxFacts TxBody TxShow TxReview BindFacts BindCases SafeFacts TxInv RawFacts TxAccept FwdFacts FormFacts.
Import S ST SD SX SL SR SF SW.

(** ** Where the parts are *)
Record form_at (e : env) (k : numbers) (u : form) : Prop := {
  fa_wf : wf e; fa_form : form_ok u; fa_num : numbers_ok k u;
  fa_at : at_ e 0 (heading (n_top k) ++ f_hash u ++ form_payload k u) }.

Definition pay_at (k : numbers) : Z := tsize (n_top k) + 32 + tsize (n_payload k).
Definition ilen (u : form) : Z := zlen (init_bytes (f_initiator u)).
Definition clen (u : form) : Z := zlen (f_chain u).
(** position of a part of the header *)
Definition fpart (k : numbers) (u : form) (q : part_v1) : Z :=
  let h := pay_at k + 21 in
  match q with
  | v1_initiator => h
  | v1_timestamp => h + ilen u
  | v1_ttl => h + ilen u + 8
  | v1_chainname => h + ilen u + 20
  | v1_payment | v1_receipt => h + ilen u + 20 + clen u + tsize (n_price k) + 1
  | v1_gasprice => h + ilen u + 20 + clen u + tsize (n_price k) + 1 + (match f_price u with PClassic _ _ _ => 8 | _ => 0 end)
  end.
Definition price_tail (p : price) : list Z := match p with PClassic a g f => le 8 a ++ [g] ++ [f] | PFixed g f => [g] ++ [f] | PPrepaid r => r end.

Record fpieces (e : env) (k : numbers) (u : form) : Prop := {
  fp_hash : at_ e (tsize (n_top k)) (f_hash u);
  fp_init : at_ e (fpart k u v1_initiator) (init_bytes (f_initiator u));
  fp_time : at_ e (fpart k u v1_timestamp) (le 8 (f_time u));
  fp_ttl : at_ e (fpart k u v1_ttl) (le 8 (f_ttl u));
  fp_chain : at_ e (fpart k u v1_chainname) (f_chain u);
  fp_price : at_ e (fpart k u v1_payment) (price_tail (f_price u));
  fp_args : at_ e (body_at k u + 10) (argument_bytes (f_args u));
  fp_target : at_ e (target_at (body_at k u) (f_args u) + 4) (under (snd (n_target k)) (target_fields k (f_target u)));
  fp_entry : at_ e (entry_at (body_at k u) k (f_args u) (f_target u) + 4) (under (snd (n_entry k)) (entry_fields (f_entry u))) }.

Lemma zlen_init_table k u : numbers_ok k u -> zlen (under (n_initiator k) (initiator_fields (f_initiator u))) = 21 + ilen u.
Proof.
  intros N. destruct (no_initiator _ _ N) as [_ L]. change (@S.len Z) with (@zlen Z) in L.
  unfold under, initiator_fields. rewrite zlen_app, zlen_heading, L. cbn [List.concat]. rewrite app_nil_r, zlen_app. change (zlen [match f_initiator u with PublicKey _ _ => 0 | AccountHash _ => 1 end]) with 1.
  unfold ilen. lia.
Qed.
Lemma fpieces_of e k u : form_at e k u -> fpieces e k u.
Proof.
  intros [W F N A]. pose proof (zlen_init_table k u N) as ZI. destruct (no_initiator _ _ N) as [_ LI]. change (@S.len Z) with (@zlen Z) in LI.
  assert (ZH : zlen (f_hash u) = 32) by exact (fo_hash _ F).
  assert (BA : body_at k u = pay_at k + 21 + ilen u + 20 + clen u + zlen (under (n_price k) (price_fields (f_price u)))).
  { unfold body_at, pay_at. rewrite ZI, zlen_lv. unfold clen. lia. }
  apply at_app in A. destruct A as [_ A]. apply at_app in A. destruct A as [AH A]. unfold form_payload, under at 1 in A. apply at_app in A. destruct A as [_ A].
  rewrite !zlen_heading, ZH in *. change (0 + (8 + 6 * zlen (t_offs (n_top k)))) with (tsize (n_top k)) in *.
  change (8 + 6 * zlen (t_offs (n_payload k))) with (tsize (n_payload k)) in A. fold (pay_at k) in A.
  unfold form_fields in A. cbn [List.concat] in A. rewrite app_nil_r in A.
  apply at_app in A. destruct A as [AI A]. apply at_app in A. destruct A as [AT A]. apply at_app in A. destruct A as [AL A]. apply at_app in A. destruct A as [AC A]. apply at_app in A. destruct A as [AP A].
  apply at_app in A. destruct A as [_ A]. unfold section in A. rewrite <- !app_assoc in A.
  apply at_app in A. destruct A as [_ A]. apply at_app in A. destruct A as [_ A]. apply at_app in A. destruct A as [AA A].
  apply at_app in A. destruct A as [_ A]. apply at_app in A. destruct A as [_ A]. apply at_app in A. destruct A as [AG A].
  apply at_app in A. destruct A as [_ A]. apply at_app in A. destruct A as [_ A]. apply at_app in A. destruct A as [AE _].
  rewrite ZI, !le_length, !zlen_lv in *. cbn [Z.of_nat Pos.of_succ_nat Pos.succ] in *. change (zlen (f_chain u)) with (clen u) in *.
  unfold under at 1 in AI. apply at_app in AI. destruct AI as [_ AI]. rewrite zlen_heading, LI in AI. unfold initiator_fields in AI. cbn [List.concat] in AI. rewrite app_nil_r in AI.
  apply at_app in AI. destruct AI as [_ AI]. change (zlen [match f_initiator u with PublicKey _ _ => 0 | AccountHash _ => 1 end]) with 1 in AI.
  apply at_lv in AC. destruct AC as [_ AC].
  assert (AQ : at_ e (pay_at k + (21 + ilen u) + 8 + 8 + (4 + clen u) + tsize (n_price k) + 1) (price_tail (f_price u))).
  { unfold under in AP. apply at_app in AP. destruct AP as [_ AP]. rewrite zlen_heading in AP. unfold tsize.
    destruct (f_price u) as [a g f|g f|r]; cbn [price_fields List.concat price_tail] in *; rewrite app_nil_r in AP; apply at_app in AP; destruct AP as [_ AP]; exact AP. }
  assert (P : forall p q bs, at_ e p bs -> p = q -> at_ e q bs) by (intros; subst; auto).
  constructor; unfold fpart, entry_at, target_at; rewrite ?BA; eauto; (eapply P; [eassumption|lia]).
Qed.

(** ** Lines before the body *)
Section Lines.
Variables (e : env) (k : numbers) (u : form).
Hypothesis X : form_at e k u.
Let v := form_obj (expert e) k u.

Lemma top1 : foff (tmeta v) 1 = 32 /\ foff (tmeta v) 0 = 0.
Proof.
  pose proof (no_top _ _ (fa_num _ _ _ X)) as [[_ (m & Ot)] _]. change (tmeta v) with (meta_of (n_top k)). rewrite !foff_off. unfold off. rewrite Ot.
  split; [|reflexivity]. cbn. change (@S.len Z) with (@zlen Z). pose proof (fo_hash _ (fa_form _ _ _ X)) as H. change (@S.len Z) with (@zlen Z) in H. lia.
Qed.
Lemma part_run_f q o : clen u < 256 -> index_headerpart_txnV1 v q e o = (Ret tt, fpart k u q).
Proof.
  intros LC. pose proof (fpieces_of _ _ _ X) as Pc. pose proof (fa_wf _ _ _ X) as W. pose proof (wf_max e W) as MX.
  pose proof (at_bound _ _ _ W (fp_price _ _ _ Pc)) as BP. pose proof (zlen_nonneg (price_tail (f_price u))) as NP.
  pose proof (zlen_nonneg (init_bytes (f_initiator u))) as NI. fold (ilen u) in NI. pose proof (zlen_nonneg (f_chain u)) as NC. fold (clen u) in NC.
  pose proof (zlen_nonneg (t_offs (n_top k))) as N1. pose proof (zlen_nonneg (t_offs (n_payload k))) as N2. pose proof (zlen_nonneg (t_offs (n_price k))) as N3.
  assert (R8 : match f_price u with PClassic _ _ _ => 9 | _ => 1 end <= zlen (price_tail (f_price u))).
  { pose proof (fo_price _ (fa_form _ _ _ X)) as GQ. destruct (f_price u); cbn [price_tail form_price] in *; rewrite ?zlen_app, ?le_length; try (cbn; lia).
    change (S.len receipt) with (zlen receipt) in GQ. lia. }
  unfold index_headerpart_txnV1. rewrite (proj1 top1).
  change (metadata_size (tmeta v)) with (tsize (n_top k)). change (metadata_size (tpayload_meta v)) with (tsize (n_payload k)).
  change (theader v) with (header_obj (f_initiator u) (f_chain u) (n_price k) (f_price u)). unfold header_obj.
  cbn [initiator_address_metadata_size initiator_address_len chain_name_len pricing_mode pricing_mode_metadata_size].
  fold (ilen u) (clen u). rewrite (u8_small (clen u)) by lia.
  cbn [fpart] in BP. unfold tsize in *.
  assert (EB : u16 (8 + 6 * zlen (t_offs (n_top k)) + 32 + (8 + 6 * zlen (t_offs (n_payload k))) + 20 + 1) = pay_at k + 21) by (unfold pay_at, tsize in *; rewrite u16_small; lia).
  rewrite EB. fold (tsize (n_price k)) in *.
  match goal with |- bind (set_off ?a) _ _ _ = _ => assert (E : a = fpart k u q /\ 0 <= fpart k u q <= blen e) end.
  { assert (0 <= pay_at k) by (unfold pay_at, tsize; lia). assert (0 <= tsize (n_price k)) by (unfold tsize; lia).
    destruct q; cbn [fpart]; try (rewrite u16_small by lia); split; try lia; destruct (f_price u); cbn [price_no]; cbv [PricingModeClassic]; cbn [Z.eqb]; try lia. }
  destruct E as [E R]. rewrite E, step_set_off by lia. rewrite step_get_off, step_ask. unfold check. replace (fpart k u q <=? blen e) with true by lia. reflexivity.
Qed.
End Lines.

Lemma pricing_items_f e k u t i l o : form_at e k u -> clen u < 256 -> same_price (f_price u) (x_pricing (x_payload t)) ->
  match x_pricing (x_payload t) with Classic a _ _ => a < 10 ^ 19 | _ => True end ->
  nth_error (pricing_lines (x_pricing (x_payload t))) i = Some l ->
  xdisplays (getItem_pricing_mode (form_obj (expert e) k u) (Z.of_nat i)) e o l.
Proof.
  intros X LC SP MX Hi. pose proof (fpieces_of _ _ _ X) as Pc. pose proof (fa_wf _ _ _ X) as W.
  pose proof (fo_price _ (fa_form _ _ _ X)) as GQ. pose proof (fp_price _ _ _ Pc) as AR.
  pose proof (fun q o => part_run_f e k u X q o LC) as PR.
  unfold getItem_pricing_mode, payment_value, gas_value. change (pricing_mode (theader (form_obj (expert e) k u))) with (price_no (f_price u)).
  destruct (f_price u) as [a g s|g f|r] eqn:EQ, (x_pricing (x_payload t)) as [a' g' s'|g' f'|r']; cbn [same_price] in SP; try contradiction;
    cbn [pricing_lines price_no price_tail form_price] in *.
  - destruct SP as [<- <-]. rewrite !at_app, le_length in AR. cbn [Z.of_nat Pos.of_succ_nat Pos.succ] in AR. destruct AR as (A1 & A2 & _).
    nth_split Hi; try (rewrite nth_error_nil in Hi; discriminate Hi); ground_eqb;
      change (0 =? PricingModeClassic) with true; change (0 =? PricingModePrepaid) with false; cbv iota.
    + eapply ignoring_ok.
      * rewrite (bind_Ret _ _ _ _ _ _ (PR v1_payment o)).
        step (readU64_at _ e _ W A1 ltac:(lia)). unfold uint64_to_str.
        assert (DL : zlen (dec a) <= 19) by (apply (dec_len a 19); [lia | lia | exact MX]).
        replace (zlen (dec a) <? 20) with true by lia. rewrite step_lift. rewrite separators_ok; [reflexivity | exact DL |].
        intros E0. destruct (dec_decimal a ltac:(lia)) as (NN & _). contradiction.
      * split; [reflexivity|]. cbn [snd xrenders ival]. exists (dec a). split; [apply dec_decimal; lia | reflexivity].
    + eapply ignoring_ok.
      * rewrite (bind_Ret _ _ _ _ _ _ (PR v1_gasprice o)). cbn [fpart] in *. rewrite EQ.
        step (readU8_at _ e _ W A2). reflexivity.
      * split; [reflexivity|]. cbn [snd xl xrenders ival renders]. exists (dec g). split; [apply dec_decimal; lia | reflexivity].
  - destruct SP as [<- <-]. apply at_app in AR. destruct AR as [A1 _].
    nth_split Hi; try (rewrite nth_error_nil in Hi; discriminate Hi); ground_eqb;
      change (1 =? PricingModeClassic) with false; change (1 =? PricingModeFixed) with true; change (1 =? PricingModePrepaid) with false; cbv iota.
    + eapply ignoring_ok; [reflexivity | split; reflexivity].
    + eapply ignoring_ok.
      * rewrite (bind_Ret _ _ _ _ _ _ (PR v1_gasprice o)). cbn [fpart] in *. rewrite EQ, Z.add_0_r.
        step (readU8_at _ e _ W A1). reflexivity.
      * split; [reflexivity|]. cbn [snd xl xrenders ival renders]. exists (dec g). split; [apply dec_decimal; lia | reflexivity].
  - subst r'. change (S.len r) with (zlen r) in GQ.
    nth_split Hi; try (rewrite nth_error_nil in Hi; discriminate Hi); ground_eqb;
      change (2 =? PricingModeClassic) with false; change (2 =? PricingModeFixed) with false; change (2 =? PricingModePrepaid) with true; cbv iota.
    + eapply ignoring_ok; [reflexivity | split; reflexivity].
    + eapply ignoring_ok.
      * rewrite (bind_Ret _ _ _ _ _ _ (PR v1_receipt o)).
        rewrite step_get_off. apply (parser_printBytes_at r); auto; lia.
      * split; reflexivity.
Qed.

(** The parts that the first lines show. *)
Record tops (u : form) (t : transaction) : Prop := {
  to_hash : x_hash t = f_hash u; to_initiator : x_initiator (x_payload t) = f_initiator u;
  to_time : x_time (x_payload t) = f_time u; to_ttl : x_ttl (x_payload t) = f_ttl u; to_chain : x_chain (x_payload t) = f_chain u;
  to_pricing : same_price (f_price u) (x_pricing (x_payload t)); to_entry : x_entry (x_payload t) = f_entry u }.
Lemma tops_of k u data t : depicts k u data t -> tops u t.
Proof. intros []. constructor; assumption. Qed.

Lemma head_lines_f e k u t i l o : form_at e k u -> tops u t -> good_name 99 (f_chain u) ->
  xexpert_ok (expert e) (timefmt e) (x_payload t) ->
  Z.of_nat i < numItems (form_obj (expert e) k u) -> nth_error (top_lines (expert e) t) i = Some l ->
  xdisplays (getItemTxV1 (form_obj (expert e) k u) (Z.of_nat i)) e o l.
Proof.
  intros X [Dh Di Dt Dl Dc Dp De] GC EX Li' Hi.
  pose proof (fpieces_of _ _ _ X) as Pc. pose proof (fa_wf _ _ _ X) as W. pose proof (fa_form _ _ _ X) as F.
  assert (LC : clen u < 256) by (destruct GC as [GC _]; change (@S.len Z) with (@zlen Z) in GC; unfold clen; lia).
  pose proof (fun q o => part_run_f e k u X q o LC) as PR.
  assert (PA : forall B q (kk : unit -> P B) o, bind (index_headerpart_txnV1 (form_obj (expert e) k u) q) kk e o = kk tt e (fpart k u q)).
  { intros. rewrite (bind_Ret _ _ _ _ _ _ (PR q o0)). reflexivity. }
  destruct F as [Fh Fi Ft Fl Fp _ _ _ _]. change (@S.len Z) with (@zlen Z) in *.
  assert (Hi' : nth_error ([xl "Txn hash" (Hex (f_hash u)); xl "Type" (Words (text (entry_text (f_entry u))));
     xl "Chain ID" (Text (f_chain u)); xl "Account" (Hex (init_bytes (f_initiator u)))]
     ++ (if expert e then [xl "Timestamp" (Time (f_time u / 1000)); xl "Ttl" (Ttl (f_ttl u / 1000))]
                     ++ pricing_lines (x_pricing (x_payload t)) else [])) i = Some l).
  { rewrite <- Hi, <- Dh, <- De, <- Dc, <- Di, <- Dt, <- Dl. unfold top_lines, frame. destruct (expert e); [destruct (x_pricing (x_payload t))|]; reflexivity. }
  clear Hi. rename Hi' into Hi. unfold xexpert_ok in EX. rewrite Dt, Dl in EX. pose proof (fun j o => pricing_items_f e k u t j l o X LC Dp) as PI.
  set (v := form_obj (expert e) k u) in *. set (pls := pricing_lines (x_pricing (x_payload t))) in *.
  assert (P2 : List.length pls = 2%nat) by (unfold pls; destruct (x_pricing (x_payload t)); reflexivity).
  apply nth_app2 in Hi. destruct Hi as [[L4 Hi]|[L4 Hi]].
  - unfold getItemTxV1, xdisplays. rewrite step_check by exact (proj2 (Z.ltb_lt _ _) Li'). rewrite step_ask.
    nth_split Hi; try (rewrite nth_error_nil in Hi; discriminate Hi); ground_eqb.
    + assert (M0 : metadata_size (tmeta v) + foff (tmeta v) 0 = tsize (n_top k)) by (unfold v; rewrite (proj2 (top1 e k u X)), Z.add_0_r; reflexivity).
      rewrite M0. pose proof (fp_hash _ _ _ Pc) as A. pose proof (at_bound _ _ _ W A) as Bd. pose proof (wf_max e W).
      rewrite step_set_off by lia. rewrite step_get_off. apply xdisplays_of. apply printBytes_shows; auto; lia.
    + eexists _, _. split; [reflexivity|]. split; [reflexivity|]. change (entry_point_type v) with (entry_no (f_entry u)). cbn [snd xl xrenders renders ival].
      rewrite entry_text_eq. reflexivity.
    + rewrite PA. rewrite step_get_off. change (chain_name_len (theader v)) with (u8 (zlen (f_chain u))). fold (clen u). pose proof (zlen_nonneg (f_chain u)) as NC. fold (clen u) in NC. rewrite u8_small by lia.
      apply xdisplays_of. apply show_text_at; auto. exact (fp_chain _ _ _ Pc).
    + rewrite PA. rewrite step_get_off. change (initiator_address_len (theader v)) with (zlen (init_bytes (f_initiator u))).
      apply xdisplays_of. apply printBytes_shows; auto; [exact (fp_init _ _ _ Pc)|].
      destruct (f_initiator u) as [alg key|h]; cbn [init_bytes form_initiator] in *; rewrite ?zlen_cons; [|change (@S.len Z) with (@zlen Z) in Fi; lia].
      unfold any_key in Fi. change (@S.len Z) with (@zlen Z) in Fi. destruct Fi as [[_ ->]|[[_ E]|[_ E]]]; [change (zlen (@nil Z)) with 0|rewrite E..]; lia.
  - cbn [List.length] in L4, Hi. destruct (expert e) eqn:EE; [|rewrite nth_error_nil in Hi; discriminate Hi].
    destruct (EX eq_refl) as (ET & [ts ES] & EA).
    unfold getItemTxV1, xdisplays. rewrite step_check by exact (proj2 (Z.ltb_lt _ _) Li'). rewrite step_ask, EE.
    remember (i - 4)%nat as j eqn:Ej. assert (i = 4 + j)%nat as -> by lia. clear Ej.
    destruct j as [|[|j]]; cbn [nth_error app] in Hi.
    -- injection Hi as <-. change (Z.of_nat (4 + 0)) with 4. ground_eqb. rewrite PA. eexists _, _. split.
       ++ unfold show_timestamp. step (readU64_at _ e _ W (fp_time _ _ _ Pc) ltac:(lia)). rewrite step_ask, ES. reflexivity.
       ++ split; [reflexivity|]. exists ts; auto.
    -- injection Hi as <-. change (Z.of_nat (4 + 1)) with 5. ground_eqb. rewrite PA.
       pose proof (show_ttl_at _ e _ W (fp_ttl _ _ _ Pc) Fl) as ST. replace (f_ttl u / 1000 <? 29 * 86400) with true in ST by lia.
       destruct ST as (s & ST & TT). eexists _, _. split; [exact ST|]. split; [reflexivity|]. exists s; auto.
    -- replace (Z.of_nat (4 + Datatypes.S (Datatypes.S j))) with (6 + Z.of_nat j) by lia.
       assert (J2 : Z.of_nat j < 2) by (pose proof (nth_cases _ _ _ Hi) as Lz; lia).
       replace (6 + Z.of_nat j =? 0) with false by lia. replace (6 + Z.of_nat j =? 1) with false by lia.
       replace (6 + Z.of_nat j =? 2) with false by lia. replace (6 + Z.of_nat j =? 3) with false by lia.
       replace (6 + Z.of_nat j =? 4) with false by lia. replace (6 + Z.of_nat j =? 5) with false by lia.
       unfold pricing_mode_items. replace (6 + Z.of_nat j <? 6 + 2) with true by lia. cbn [andb].
       replace (6 + Z.of_nat j - 6) with (Z.of_nat j) by lia. apply PI; auto.
Qed.

(** ** Lines of the body *)
(** Lines from the body on, when the body's lines are [ls]. *)
Lemma tail_lines v e ls nap i l o : wf e -> numItems v = (if expert e then 9 else 4) + zlen ls -> zlen ls < 20 -> num_approvals v = nap -> 0 <= nap ->
  (forall j l0 o, nth_error ls j = Some l0 -> xdisplays (getItem_args v (Z.of_nat j)) e o l0) ->
  ((if expert e then 8 else 4) <= i)%nat ->
  nth_error (ls ++ (if expert e then [(text "Approvals #", Count nap)] else [])) (i - (if expert e then 8 else 4)) = Some l ->
  xdisplays (getItemTxV1 v (Z.of_nat i)) e o l.
Proof.
  intros W CNT LS NA N0 BL Lk Hn. pose proof (nth_cases _ _ _ Hn) as Li. rewrite app_length in Li. pose proof (zlen_nonneg ls) as NL.
  remember (if expert e then 8 else 4)%nat as k eqn:Hk.
  assert (Li' : Z.of_nat i < (if expert e then 9 else 4) + zlen ls) by (unfold zlen; destruct (expert e); cbn [List.length] in Li; lia).
  assert (RT : u16 ((if expert e then 9 else 4) + zlen ls - (if expert e then 9 else 2 + pricing_mode_items)) = zlen ls).
  { unfold pricing_mode_items. destruct (expert e); rewrite u16_small; lia. }
  unfold getItemTxV1, xdisplays. rewrite CNT, step_check by lia. rewrite step_ask.
  assert (K4 : 4 <= Z.of_nat i) by (destruct (expert e); lia).
  assert (K8 : expert e = true -> 8 <= Z.of_nat i) by (intros E; rewrite E in Hk; lia).
  replace (Z.of_nat i =? 0) with false by lia. replace (Z.of_nat i =? 1) with false by lia.
  replace (Z.of_nat i =? 2) with false by lia. replace (Z.of_nat i =? 3) with false by lia.
  assert (KX : forall c, c < 8 -> expert e && (Z.of_nat i =? c) = false).
  { intros c Hc. destruct (expert e); [cbn; specialize (K8 eq_refl); lia | reflexivity]. }
  rewrite !KX by lia. cbv zeta. rewrite RT. unfold pricing_mode_items.
  assert (KP : expert e && (Z.of_nat i <? 6 + 2) = false).
  { destruct (expert e); [cbn [andb]; specialize (K8 eq_refl); lia | reflexivity]. }
  rewrite KP.
  assert (KN : (if expert e then Z.of_nat i else u8 (Z.of_nat i + 2 + 2)) = 8 + Z.of_nat (i - k)).
  { destruct (expert e); subst k; [lia|]. rewrite u8_small by lia. lia. }
  rewrite KN. replace (8 <=? 8 + Z.of_nat (i - k)) with true by lia. cbn [andb].
  apply nth_app2 in Hn. destruct Hn as [[Lj Hn]|[Lj Hn]].
  - replace (8 + Z.of_nat (i - k) <? 8 + zlen ls) with true by (unfold zlen; lia).
    replace (8 + Z.of_nat (i - k) - 8) with (Z.of_nat (i - k)) by lia. exact (BL _ _ o Hn).
  - replace (8 + Z.of_nat (i - k) <? 8 + zlen ls) with false by (unfold zlen; lia).
    destruct (expert e) eqn:EE; [|rewrite nth_error_nil in Hn; discriminate Hn].
    replace (8 + zlen ls <=? 8 + Z.of_nat (i - k)) with true by (unfold zlen; lia). cbn [andb].
    assert (i - k - List.length ls = 0)%nat as E by (pose proof (nth_cases _ _ _ Hn) as Lz; cbn in Lz; lia).
    rewrite E in Hn. cbn in Hn. injection Hn as <-.
    eexists _, _. split; [reflexivity|]. split; [reflexivity|]. cbn [snd xrenders ival]. rewrite NA.
    exists (dec nap). split; [apply dec_decimal; exact N0 | reflexivity].
Qed.

Lemma called_items e v o0 name i r bs ls : wf e -> good_id i ->
  entry_point_type v = 1 -> ttarget v = id_obj o0 i ->
  match i with ByHash h | ByHashV h _ => at_ e (o0 + 1) h | ByName n | ByNameV n _ => at_ e (o0 + 5) n end ->
  (forall o, xdisplays (show_text "Entry-point" (custom_entry_point v) (custom_entry_point_len v)) e o (xl "Entry-point" (Text name))) ->
  (forall o, xdisplays (show_custom_args_hash v) e o (xl "Args hash" (Hex (hash e bs)))) ->
  numItems v = (if expert e then 9 else 4) + tgt_items (expert e) (XStored i r) + 1 -> 0 <= runtime_args_offset (targs v) < 65536 ->
  custom_review (hash e) (expert e) i name (Raw bs) = Some ls ->
  zlen ls = tgt_items (expert e) (XStored i r) + 1 /\
  forall k l0 o, nth_error ls k = Some l0 -> xdisplays (getItem_args v (Z.of_nat k)) e o l0.
Proof.
  intros W GI EP TT IA EN AH N RO R.
  assert (K : forall num, num = tgt_items (expert e) (XStored i r) + 1 -> 0 <= num < 200 ->
     u32 (numItems v - (if expert e then 9 else 4)) = num).
  { intros num -> Hn. rewrite N. destruct (expert e); rewrite u32_small; lia. }
  assert (GA : forall k o, getItem_args v (Z.of_nat k) e o = getItem_Custom v (Z.of_nat k) e (runtime_args_offset (targs v))).
  { intros k o. unfold getItem_args. rewrite EP, step_set_off by lia. reflexivity. }
  destruct i as [h|n|h ver|n ver]; cbn [custom_review tgt_items good_id arg_bytes] in *.
  - some_inj R. split; [reflexivity|]. change (S.len h) with (zlen h) in GI.
    intros k l0 o Hk. unfold xdisplays. rewrite GA. unfold getItem_Custom. rewrite step_ask, (K 4) by lia. rewrite TT. cbn [id_obj ttype tptr].
    cbn [app] in Hk. nth_split Hk; rewrite step_check by reflexivity; ground_eqb.
    + apply execution_ok.
    + apply hash_decimal_at; auto.
    + apply EN.
    + apply AH.
  - some_inj R. split; [reflexivity|].
    intros k l0 o Hk. unfold xdisplays. rewrite GA. unfold getItem_Custom. rewrite step_ask, (K 4) by lia. rewrite TT. cbn [id_obj ttype tptr tname_len].
    cbn [app] in Hk. nth_split Hk; rewrite step_check by reflexivity; ground_eqb.
    + apply execution_ok.
    + apply vtext_at; auto.
    + apply EN.
    + apply AH.
  - destruct GI as [GI GV]. change (S.len h) with (zlen h) in GI. unfold ver_item in *. unfold NO_ENTITY_VERSION_PRESENT in *.
    destruct (expert e) eqn:X.
    + destruct ver as [nv|]; [|discriminate R]. cbn [ver_no good_ver] in *.
      destruct (nv =? 2 ^ 32 - 1) eqn:NV; [discriminate R|]. some_inj R.
      replace (nv =? 4294967295) with false in * by (change (2 ^ 32 - 1) with 4294967295 in NV; auto). cbn [negb andb b2z] in *.
      split; [reflexivity|].
      intros k l0 o Hk. unfold xdisplays. rewrite GA. unfold getItem_Custom. rewrite step_ask, X, (K 5) by lia. rewrite TT. cbn [id_obj ttype tptr entity_version ver_no].
      cbn [app] in Hk. nth_split Hk; rewrite step_check by reflexivity; ground_eqb.
      * apply execution_ok.
      * apply hash_decimal_at; auto.
      * unfold NO_ENTITY_VERSION_PRESENT. replace (nv =? 4294967295) with false by (change (2 ^ 32 - 1) with 4294967295 in NV; auto). apply version_ok. lia.
      * apply EN.
      * apply AH.
    + rewrite andb_false_r in *. cbn [b2z] in *. some_inj R. split; [reflexivity|].
      intros k l0 o Hk. unfold xdisplays. rewrite GA. unfold getItem_Custom. rewrite step_ask, X, (K 4) by lia. rewrite TT. cbn [id_obj ttype tptr entity_version ver_no].
      cbn [app] in Hk. nth_split Hk; rewrite step_check by reflexivity; ground_eqb.
      * apply execution_ok.
      * apply hash_decimal_at; auto.
      * apply EN.
      * apply AH.
  - destruct GI as [GI GV]. unfold ver_item in *. unfold NO_ENTITY_VERSION_PRESENT in *.
    destruct (expert e) eqn:X.
    + destruct ver as [nv|]; [|discriminate R]. cbn [ver_no good_ver] in *.
      destruct (nv =? 2 ^ 32 - 1) eqn:NV; [discriminate R|]. some_inj R.
      replace (nv =? 4294967295) with false in * by (change (2 ^ 32 - 1) with 4294967295 in NV; auto). cbn [negb andb b2z] in *.
      split; [reflexivity|].
      intros k l0 o Hk. unfold xdisplays. rewrite GA. unfold getItem_Custom. rewrite step_ask, X, (K 5) by lia. rewrite TT. cbn [id_obj ttype tptr tname_len entity_version ver_no].
      cbn [app] in Hk. nth_split Hk; rewrite step_check by reflexivity; ground_eqb.
      * apply execution_ok.
      * apply vtext_at; auto.
      * unfold NO_ENTITY_VERSION_PRESENT. replace (nv =? 4294967295) with false by (change (2 ^ 32 - 1) with 4294967295 in NV; auto). apply version_ok. lia.
      * apply EN.
      * apply AH.
    + rewrite andb_false_r in *. cbn [b2z] in *. some_inj R. split; [reflexivity|].
      intros k l0 o Hk. unfold xdisplays. rewrite GA. unfold getItem_Custom. rewrite step_ask, X, (K 4) by lia. rewrite TT. cbn [id_obj ttype tptr tname_len entity_version ver_no].
      cbn [app] in Hk. nth_split Hk; rewrite step_check by reflexivity; ground_eqb.
      * apply execution_ok.
      * apply vtext_at; auto.
      * apply EN.
      * apply AH.
Qed.

Lemma body_before e k u : form_at e k u -> before_body k u = body_at k u.
Proof.
  intros X. pose proof (fo_hash _ (fa_form _ _ _ X)) as H. unfold before_body, body_at. change (@S.len Z) with (@zlen Z) in *. rewrite H, !zlen_heading. unfold tsize. lia.
Qed.
Lemma here_at e o bs : wf e -> here (mem e) o bs -> at_ e o bs.
Proof. intros W (pre & post & E & L). apply slice_Some. exists pre, post. auto. Qed.

Lemma args_hash_f e k u bs o : form_at e k u -> args_pos k u < 256 -> digested k u (mem e) bs ->
  xdisplays (show_custom_args_hash (form_obj (expert e) k u)) e o (xl "Args hash" (Hex (hash e bs))).
Proof.
  intros X L D. pose proof (fpieces_of _ _ _ X) as Pc. pose proof (fa_wf _ _ _ X) as W. pose proof (fp_args _ _ _ Pc) as A. pose proof (at_bound _ _ _ W A) as B.
  pose proof (zlen_nonneg (argument_bytes (f_args u))). apply xdisplays_of. unfold show_custom_args_hash.
  change (targs (form_obj (expert e) k u)) with (args_obj (body_at k u + 6) (n_args k) (f_args u)).
  unfold args_pos in *. rewrite (body_before _ _ _ X) in *. unfold digested, args_pos in D. rewrite (body_before _ _ _ X) in D.
  assert (S : exists i n, (let a := args_obj (body_at k u + 6) (n_args k) (f_args u) in if bytes_repr a then mem_slice (runtime_args_offset a) (runtime_args_len a)
      else mem_slice (runtime_args_offset a - 4) (u32 (runtime_args_len a - 1))) = mem_slice i n /\ at_ e i bs /\ n = zlen bs).
  { destruct (f_args u) as [l|b]; cbn [args_obj bytes_repr runtime_args_offset runtime_args_len].
    - destruct D as [D E]. eexists _, _. split; [reflexivity|]. rewrite u8_small by lia. split; [|symmetry; exact E].
      replace (body_at k u + 6 + 9 - 4) with (body_at k u + 15 - 4) by lia. apply here_at; auto.
    - subst b. eexists _, _. split; [reflexivity|]. rewrite u8_small by lia. split; [|reflexivity].
      cbn [argument_bytes] in A. apply at_cons in A. destruct A as [_ A]. apply at_lv in A. destruct A as [_ A].
      replace (body_at k u + 6 + 9) with (body_at k u + 10 + 1 + 4) by lia. exact A. }
  destruct S as (i & n & S & Ai & ->). cbv zeta in S. cbv zeta. rewrite S.
  eexists _, o. split.
  - rewrite (step_at _ _ _ _ _ _ Ai) by reflexivity. rewrite step_ask.
    rewrite printBytes_ok; [rewrite step_lift; reflexivity | ..]; try apply (wf_hash e W).
    + apply (wf_hashb e W).
    + rewrite (wf_hash e W). lia.
  - split; reflexivity.
Qed.
Lemma entry_name_f e k u name o : form_at e k u -> f_entry u = Custom name -> good_name 99 name ->
  let v := form_obj (expert e) k u in
  xdisplays (show_text "Entry-point" (custom_entry_point v) (custom_entry_point_len v)) e o (xl "Entry-point" (Text name)).
Proof.
  intros X E G v. pose proof (fpieces_of _ _ _ X) as Pc. pose proof (fa_wf _ _ _ X) as W. pose proof (fp_entry _ _ _ Pc) as A.
  rewrite E in A. unfold under in A. apply at_app in A. destruct A as [_ A]. rewrite zlen_heading in A. cbn [entry_fields List.concat] in A. rewrite app_nil_r in A.
  apply at_app in A. destruct A as [_ A]. apply at_lv in A. destruct A as [_ A]. change (zlen [1]) with 1 in A.
  assert (EC : custom_entry_point v = entry_at (body_at k u) k (f_args u) (f_target u) + 4 + tsize (snd (n_entry k)) + 5 /\ custom_entry_point_len v = zlen name).
  { unfold v, form_obj, body_obj, entry_obj. rewrite E. split; reflexivity. }
  destruct EC as [-> ->]. apply vtext_at; auto. unfold tsize.
  match goal with |- at_ e ?q _ => match type of A with at_ e ?p _ => replace q with p by lia end end. exact A.
Qed.
Lemma id_at_f e k u i r : form_at e k u -> f_target u = XStored i r ->
  let o0 := target_at (body_at k u) (f_args u) + 4 + tsize (snd (n_target k)) + 1 + tsize (n_id k) in
  match i with ByHash h | ByHashV h _ => at_ e (o0 + 1) h | ByName n | ByNameV n _ => at_ e (o0 + 5) n end.
Proof.
  intros X E o0. pose proof (fpieces_of _ _ _ X) as Pc. pose proof (fp_target _ _ _ Pc) as A. rewrite E in A.
  unfold under at 1 in A. apply at_app in A. destruct A as [_ A]. rewrite zlen_heading in A. cbn [target_fields List.concat] in A. rewrite app_nil_r in A.
  apply at_app in A. destruct A as [_ A]. apply at_app in A. destruct A as [A _]. change (zlen [1]) with 1 in A.
  unfold under in A. apply at_app in A. destruct A as [_ A]. rewrite zlen_heading in A.
  unfold o0, tsize in *.
  destruct i as [h|n|h ver|n ver]; cbn [id_fields List.concat] in A; rewrite app_nil_r in A; apply at_app in A; destruct A as [_ A].
  3,4: apply at_app in A; destruct A as [A _].
  2,4: apply at_lv in A; destruct A as [_ A].
  all: match goal with H : at_ ?e ?p ?b |- at_ ?e ?q ?b => replace q with p; [exact H|]; rewrite ?zlen_cons; change (zlen (@nil Z)) with 0; lia end.
Qed.

Lemma arg_bytes_of l : args_bytes (List.map raw_of l) = enc_arg_list l.
Proof. unfold args_bytes, enc_arg_list. rewrite map_map. f_equal. Qed.
Lemma named_at_f e k u l : form_at e k u -> f_args u = ANamed (List.map raw_of l) -> at_ e (body_at k u + 15) (enc_arg_list l).
Proof.
  intros X E. pose proof (fpieces_of _ _ _ X) as Pc. pose proof (fp_args _ _ _ Pc) as A. rewrite E in A. cbn [argument_bytes] in A.
  apply at_cons in A. destruct A as [_ A]. apply at_app in A. destruct A as [_ A]. rewrite le_length in A. cbn [Z.of_nat Pos.of_succ_nat Pos.succ] in A.
  rewrite arg_bytes_of in A. replace (body_at k u + 15) with (body_at k u + 10 + 1 + 4) by lia. exact A.
Qed.

(** The lines [ls] are those of the body. *)
Record shows_form (e : env) (v : txv1) (ls : list xline) : Prop := {
  sh_len : numItems v = (if expert e then 9 else 4) + zlen ls;
  sh_few : zlen ls < 20;
  sh_dis : forall j l0 o, nth_error ls j = Some l0 -> xdisplays (getItem_args v (Z.of_nat j)) e o l0 }.

Lemma items_of e k u : numItems (form_obj (expert e) k u) =
  u8 ((if expert e then 8 else 3) + tgt_items (expert e) (f_target u) + entry_point_items (expert e) (entry_no (f_entry u)) (nargs (f_args u))).
Proof. change (numItems (form_obj (expert e) k u)) with (u8 (3 + (if expert e then 5 else 0) + tgt_items (expert e) (f_target u) + entry_point_items (expert e) (entry_no (f_entry u)) (nargs (f_args u)))). f_equal. destruct (expert e); lia. Qed.

Lemma op_body_f e k u n l ls : form_at e k u -> args_pos k u < 256 -> f_entry u = Op n -> tgt_items (expert e) (f_target u) = 0 ->
  f_args u = ANamed (List.map raw_of l) -> good_xargs (Named l) -> op_review (hash e) (expert e) n l = Some ls ->
  shows_form e (form_obj (expert e) k u) ls.
Proof.
  intros X L EE ET EA GA R. pose proof (fa_wf _ _ _ X) as W. pose proof (named_at_f _ _ _ _ X EA) as NA.
  unfold args_pos in L. rewrite (body_before _ _ _ X) in L.
  unfold good_xargs in GA. cbn [named] in GA. apply good_arg_ok in GA.
  unfold op_review in R. destruct (op_arity n l && _) eqn:EC; [|discriminate R]. apply andb_true_iff in EC. destruct EC as [E1 E2].
  destruct (all (op_lines (hash e) (expert e) n l)) as [rl|] eqn:EO; [|discriminate R]. some_inj R.
  pose proof (at_bound _ _ _ W NA) as BA. pose proof (zlen_nonneg (enc_arg_list l)).
  assert (ZL : nargs (f_args u) = zlen l) by (rewrite EA; cbn [nargs]; unfold zlen; rewrite map_length; reflexivity).
  assert (RO : runtime_args_offset (targs (form_obj (expert e) k u)) = body_at k u + 15).
  { change (targs (form_obj (expert e) k u)) with (args_obj (body_at k u + 6) (n_args k) (f_args u)). rewrite EA. cbn [args_obj runtime_args_offset]. rewrite u8_small; lia. }
  destruct (op_items e (body_at k u + 15) l n rl (form_obj (expert e) k u) W GA NA E1 EO) as [Z D]; auto.
  { change (entry_point_type (form_obj (expert e) k u)) with (entry_no (f_entry u)). rewrite EE. reflexivity. }
  { change (targs (form_obj (expert e) k u)) with (args_obj (body_at k u + 6) (n_args k) (f_args u)). rewrite <- ZL, EA. reflexivity. }
  assert (LM : zlen (lift_lines rl) = zlen rl) by (unfold lift_lines, zlen; rewrite map_length; reflexivity).
  pose proof (all_length _ _ EO) as LL.
  assert (LO : zlen (op_lines (hash e) (expert e) n l) <= 6).
  { unfold op_lines, vector. destruct n; repeat match goal with |- context [if ?b then _ else _] => destruct b end; cbn [app];
      repeat match goal with |- context [match ?x with Some _ => _ | None => _ end] => destruct x end;
      repeat match goal with |- context [if ?b then _ else _] => destruct b end; cbn; lia. }
  pose proof (zlen_nonneg rl).
  constructor.
  - rewrite items_of, ET, EE, ZL, LM, Z. cbn [entry_no]. rewrite u8_small by (destruct (expert e); lia). destruct (expert e); lia.
  - lia.
  - intros j l0 o Hk. unfold lift_lines in Hk. rewrite nth_error_map in Hk.
    match type of Hk with option_map _ ?r = _ => destruct r as [[lab v]|] eqn:EK end; [|discriminate Hk]. cbn in Hk. injection Hk as <-.
    apply xdisplays_of. apply D. exact EK.
Qed.

Lemma offset_f e k u : form_at e k u -> args_pos k u < 256 -> 0 <= runtime_args_offset (targs (form_obj (expert e) k u)) < 65536.
Proof.
  intros X L. change (targs (form_obj (expert e) k u)) with (args_obj (body_at k u + 6) (n_args k) (f_args u)).
  assert (0 <= u8 (body_at k u + 6 + 9) < 256) by (unfold u8; apply Z.mod_pos_bound; lia).
  destruct (f_args u); cbn [args_obj runtime_args_offset]; lia.
Qed.

Lemma body_lines_f e k u t ls : form_at e k u -> depicts k u (mem e) t -> presentable t -> args_pos k u < 256 ->
  body_review (hash e) (expert e) (x_payload t) = Some ls \/ bare_body (hash e) (expert e) (x_payload t) = Some ls ->
  shows_form e (form_obj (expert e) k u) ls.
Proof.
  intros X D G L R. pose proof (fa_wf _ _ _ X) as W. pose proof (de_args _ _ _ _ D) as DA.
  destruct G as [_ Ge Gi Ga _]. rewrite (de_entry _ _ _ _ D) in Ge. rewrite (de_target _ _ _ _ D) in Gi.
  unfold body_review, bare_body in R. rewrite (de_entry _ _ _ _ D), (de_target _ _ _ _ D) in R.
  destruct (f_entry u) as [|name|n] eqn:EE.
  - assert (T0 : tgt_items (expert e) (f_target u) = 0 /\ ls = []).
    { destruct R as [R|R]; [discriminate R|]. destruct (f_target u); [|discriminate R|]; some_inj R; split; reflexivity. }
    destruct T0 as [T0 ->]. constructor.
    + rewrite items_of, T0, EE. unfold entry_point_items. cbn [entry_no]. cbv [EntryPointTransfer EntryPointCustom EntryPointAddReservations EntryPointCancelReservations EntryPointCall].
      cbn [Z.eqb]. destruct (expert e); reflexivity.
    + cbn; lia.
    + intros j l0 o Hk. rewrite nth_error_nil in Hk. discriminate Hk.
  - destruct DA as (bs & Eb & Dg). rewrite Eb in R. pose proof (fun o => args_hash_f e k u bs o X L Dg) as AH.
    pose proof (offset_f e k u X L) as RO. pose proof (items_of e k u) as N. rewrite EE in N. unfold entry_point_items in N. cbn [entry_no] in N.
    cbv [EntryPointTransfer EntryPointCustom] in N. cbn [Z.eqb Pos.eqb] in N.
    destruct (f_target u) as [|i r|b r w] eqn:ET.
    2:{ assert (R' : custom_review (hash e) (expert e) i name (Raw bs) = Some ls) by (destruct R as [R|R]; [exact R|discriminate R]).
        assert (TR : 3 <= tgt_items (expert e) (XStored i r) <= 4) by (destruct i; cbn [tgt_items]; unfold ver_item, b2z; try destruct (_ && _); lia).
        assert (N' : numItems (form_obj (expert e) k u) = (if expert e then 9 else 4) + tgt_items (expert e) (XStored i r) + 1).
        { rewrite N. destruct (expert e); rewrite u8_small; lia. }
        destruct (called_items e (form_obj (expert e) k u) (target_at (body_at k u) (f_args u) + 4 + tsize (snd (n_target k)) + 1 + tsize (n_id k)) name i r bs ls) as [Z Dis]; auto.
        - change (entry_point_type (form_obj (expert e) k u)) with (entry_no (f_entry u)). rewrite EE. reflexivity.
        - change (ttarget (form_obj (expert e) k u)) with (target_obj (target_at (body_at k u) (f_args u)) (snd (n_target k)) (n_id k) (f_target u)). rewrite ET. reflexivity.
        - exact (id_at_f e k u i r X ET).
        - intros o. apply entry_name_f; auto.
        - constructor; [lia|lia|exact Dis]. }
    all: assert (ls = [xl "Args hash" (Hex (hash e bs))]) as -> by (destruct R as [R|R]; [discriminate R|some_inj R; reflexivity]).
    all: cbn [tgt_items] in N; assert (N1 : numItems (form_obj (expert e) k u) = (if expert e then 9 else 4) + 1) by (rewrite N; destruct (expert e); reflexivity).
    all: constructor; [rewrite N1; reflexivity|cbn; lia|].
    all: intros j l0 o Hk; destruct j as [|j]; cbn [nth_error] in Hk; [|rewrite nth_error_nil in Hk; discriminate Hk]; injection Hk as <-.
    all: unfold xdisplays, getItem_args; rewrite step_set_off by lia.
    all: replace (entry_point_type (form_obj (expert e) k u) =? EntryPointCustom) with true
           by (change (entry_point_type (form_obj (expert e) k u)) with (entry_no (f_entry u)); rewrite EE; reflexivity).
    all: unfold getItem_Custom; rewrite step_ask, N1;
      replace (u32 ((if expert e then 9 else 4) + 1 - (if expert e then 9 else 4))) with 1 by (destruct (expert e); reflexivity);
      rewrite step_check by reflexivity;
      change (ttarget (form_obj (expert e) k u)) with (target_obj (target_at (body_at k u) (f_args u)) (snd (n_target k)) (n_id k) (f_target u));
      rewrite ET; apply AH.
  - destruct DA as (l & El & Ea). rewrite El in R, Ga.
    assert (R' : op_review (hash e) (expert e) n l = Some ls /\ tgt_items (expert e) (f_target u) = 0)
      by (destruct R as [R|R], (f_target u); try discriminate R; (split; [exact R|reflexivity])).
    destruct R' as [R' T0]. eapply op_body_f; eauto.
Qed.

(** ** All lines *)
Lemma form_lines e k u t ls i l o : form_at e k u -> depicts k u (mem e) t -> presentable t -> shows_form e (form_obj (expert e) k u) ls ->
  xexpert_ok (expert e) (timefmt e) (x_payload t) -> nth_error (frame (expert e) t ls) i = Some l ->
  xdisplays (getItemTxV1 (form_obj (expert e) k u) (Z.of_nat i)) e o l.
Proof.
  intros X D G SB EX Hi. pose proof (fa_wf _ _ _ X) as W. destruct SB as [CNT FEW DIS]. pose proof (zlen_nonneg ls).
  destruct (top_split (expert e) t ls) as (r & E & Er & LT). rewrite E in Hi. apply nth_app2 in Hi. destruct Hi as [[L4 Hi]|[L4 Hi]].
  - eapply head_lines_f; eauto using tops_of; [|rewrite LT in L4; destruct (expert e); lia].
    rewrite <- (de_chain _ _ _ _ D). exact (pr_chain _ G).
  - rewrite LT in L4, Hi. subst r. pose proof (pr_approvals _ G) as PA. pose proof (de_approvals _ _ _ _ D) as DA. change (@S.len) with (@zlen) in *.
    eapply (tail_lines _ _ ls (zlen (x_approvals t))); eauto using zlen_nonneg.
    change (num_approvals (form_obj (expert e) k u)) with (u8 (zlen (f_approvals u))). pose proof (zlen_nonneg (f_approvals u)). rewrite u8_small by lia. auto.
Qed.

Lemma form_env pf x kl data k u post : hash32 (p_hash pf) -> bytes data -> zlen data < 65472 -> form_ok u -> numbers_ok k u ->
  data = (heading (n_top k) ++ f_hash u ++ form_payload k u) ++ post -> form_at (ctx_of pf x false kl data (zlen data)) k u.
Proof.
  intros Hh B L F N E. constructor; auto; [apply wf_ctx; auto; lia|]. apply slice_Some. exists [], post. cbn [app mem ctx_of]. rewrite E at 1. split; [reflexivity|]. split; reflexivity.
Qed.

Lemma form_review pf x data v : hash32 (p_hash pf) -> bytes data -> zlen data < 65472 -> no_leap data ->
  tx_parse pf x (1 :: data) = Ret (TV1 v) ->
  exists k u rest cut, data ++ cut = form_bytes k u ++ rest /\ (cut = [] \/ rest = []) /\ missing (f_approvals u) cut /\
    form_ok u /\ numbers_ok k u /\ f_hash u = p_hash pf (form_payload k u) /\
    forall t lines, depicts k u data t -> presentable t ->
      review (p_hash pf) x t = Some lines \/ bare_review (p_hash pf) x t = Some lines ->
      xexpert_ok x (p_time pf) (x_payload t) -> args_pos k u < 256 -> xreviews pf x (1 :: data) lines.
Proof.
  intros Hh B L NL H. destruct (form_content _ _ _ _ Hh B L NL H) as (k & u & rest & cut & E & DJ & Zc & Fo & No & HV & Ev & post & Ed).
  exists k, u, rest, cut. do 6 (split; [assumption|]). intros t lines D G R EX AP.
  pose proof (fun kl => form_env pf x kl data k u post Hh B L Fo No Ed) as FE.
  assert (FR : exists ls, lines = frame x t ls /\ (body_review (p_hash pf) x (x_payload t) = Some ls \/ bare_body (p_hash pf) x (x_payload t) = Some ls)).
  { unfold review, bare_review in R. destruct R as [R|R]; [destruct (body_review _ _ _) as [s|]|destruct (bare_body _ _ _) as [s|]]; try discriminate R; some_inj R; eauto. }
  destruct FR as (ls & -> & R').
  assert (SB : forall kl, shows_form (ctx_of pf x false kl data (zlen data)) v ls).
  { intros kl. pose proof (body_lines_f _ k u t ls (FE kl) D G AP R') as SB. change (expert (ctx_of pf x false kl data (zlen data))) with x in SB. rewrite Ev. exact SB. }
  exists (TV1 v). split; [exact H|]. split.
  - cbn [getNumItems]. rewrite (sh_len _ _ _ (SB 40)). change (expert (ctx_of pf x false 40 data (zlen data))) with x.
    unfold frame. assert (ZL : zlen (pricing_lines (x_pricing (x_payload t))) = 2) by (destruct (x_pricing (x_payload t)); reflexivity).
    destruct x; rewrite !zlen_app, ?zlen_cons, ?ZL; repeat match goal with |- context [zlen (@nil ?A)] => change (zlen (@nil A)) with 0 end; lia.
  - intros i l Hi kl. pose proof (zlen_nonneg data). unfold tx_getItem. cbv iota. rewrite zlen_cons, u16_small by lia. replace (1 + zlen data - 1) with (zlen data) by lia.
    specialize (FE kl). specialize (SB kl). set (e1 := ctx_of pf x false kl data (zlen data)) in *.
    rewrite Ev in SB. destruct (form_lines e1 k u t ls i l 0 FE D G SB EX Hi) as (it & o' & E1 & SH).
    exists it. cbn [getItem]. change (expert e1) with x in E1. rewrite Ev, E1. split; [reflexivity | exact SH].
Qed.
