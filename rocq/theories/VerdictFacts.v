(** Which deploys are refused, and with which error. *)
From Verif Require Import Base Zxlib Crypto Utils RuntimeArg Deploy DeployUI TxV1 TxV1UI Parser BaseFacts Spec SpecText SpecDeploy SpecRaw SpecBlind SpecVerdict Exec ArgsFacts ReaderFacts TextFacts Shows DeployArgs SessionFacts DelegationFacts StoredFacts ModuleFacts ReviewFacts Demo RawShow BlindReview BlindFacts.
Import S ST SD SB SY.

(** parser_common.h 29-77 *)
Definition code (c : reason) : Z :=
  match c with
  | Missing => parser_runtimearg_notfound
  | Other_type => parser_unexpected_type
  | Number_of => parser_unexpected_number_items
  | No_amount => parser_no_data
  | Too_long => parser_unexpected_buffer_end
  end.

(** * Payments *)
Lemma payment_type_refused e o t : wf e -> at_ e o [t] -> 0 < t < 256 ->
  exists o', read_payment e o = (Fail (if t <=? NUM_DEPLOY_TYPES then parser_unexpected_type else parser_value_out_of_range), o').
Proof.
  intros W A T. eexists. unfold read_payment, parseDeployType. rewrite bind_assoc. step (readU8_at t e o W A).
  rewrite bind_assoc. unfold check at 1. destruct (t <=? NUM_DEPLOY_TYPES).
  - rewrite !step_ret. unfold check. replace (t =? ModuleBytes) with false by (unfold ModuleBytes; lia). reflexivity.
  - reflexivity.
Qed.
Lemma payment_refused l w c e o : wf e -> Forall arg_ok l -> at_ e o (0 :: lv w ++ enc_args l) ->
  payment_refusal l = Some c -> exists o', read_payment e o = (Fail (code c), o').
Proof.
  intros W F A R. pose proof (at_bound _ _ _ W A) as B.
  assert (A0' : at_ e o [0]) by (apply (proj1 (at_app e o [0] _) A)).
  apply at_cons in A. destruct A as [_ A]. apply at_app in A. destruct A as [A1 A2].
  destruct (at_args _ _ _ W A2) as (RU & A3 & ZL).
  pose proof (zlen_nonneg (lv w)). pose proof (zlen_nonneg (enc_arg_list l)). pose proof (zlen_nonneg l) as NL.
  rewrite zlen_cons, zlen_app, ZL in B. set (q := o + 1 + zlen (lv w) + 4) in *.
  assert (PS : match c with
               | Number_of => parseSystemPayment (init_item 0) (zlen l) e q = (Fail parser_unexpected_number_items, q)
               | _ => c = No_amount /\ exists j, parseSystemPayment (init_item 0) (zlen l) e q = (Ret (j, false), q)
               end).
  { unfold payment_refusal in R. change (S.len l) with (zlen l) in R. unfold parseSystemPayment.
    destruct (zlen l =? 0) eqn:E0; [injection R as <-; reflexivity|].
    assert (CK : (zlen l =? 1) && SB.typed motes_type "amount" l = false ->
      exists c, checkForSystemPaymentArgs (zlen l) e q = (Fail c, q) /\
        (c =? parser_unexpected_number_items) || (c =? parser_runtimearg_notfound) || (c =? parser_unexpected_type) = true).
    { intros X. unfold checkForSystemPaymentArgs. destruct (zlen l =? 1) eqn:E1.
      - rewrite step_check by reflexivity. rewrite (CHECK_at e W l F q A3 "amount" _ _ decides_u512). unfold SB.typed in X.
        destruct (find_arg (text "amount") l) as [a|]; [|eexists; split; reflexivity].
        change (motes_type (a_ty a)) with (match a_ty a with Prim 8 => true | _ => false end) in X. cbn [andb] in X. rewrite X. eexists; split; reflexivity.
      - eexists; split; reflexivity. }
    destruct ((zlen l =? 1) && SB.typed motes_type "amount" l); [discriminate|]. injection R as <-.
    destruct (CK eq_refl) as (c & Ec & Cc). split; [reflexivity|]. eexists.
    rewrite (step_try_fail _ _ _ _ _ _ Ec), Cc. reflexivity. }
  unfold read_payment, parseDeployType. rewrite bind_assoc.
  step (readU8_at 0 e o W A0').
  rewrite bind_assoc, step_check by reflexivity. rewrite step_ret, step_check by reflexivity.
  assert (X : exists o', (exists j, parseModuleBytes_payment (init_item 0) e (o + 1) = (Ret (j, false), o') /\ c = No_amount) \/ parseModuleBytes_payment (init_item 0) e (o + 1) = (Fail (code c), o')).
  { assert (Y : parseModuleBytes_payment (init_item 0) e (o + 1) =
      (r <- parseSystemPayment (init_item 0) (zlen l) ;;
       parseRuntimeArgs (zlen l) ;;
       total <- parseTotalLength (o + 1 + 65536 * hi16 e) ;;
       ret (set_total total (set_special SystemPayment (fst r)), snd r)) e q).
    { unfold parseModuleBytes_payment, off32. rewrite bind_assoc, step_get_off, bind_assoc, step_ask, step_ret.
      step (parse_item_at _ e _ W A1). step RU. reflexivity. }
    destruct c; try (destruct PS as [Q ?]; discriminate Q).
    - eexists. right. rewrite Y. apply bind_Fail, PS.
    - destruct PS as [_ [j PS]]. eexists. left. eexists. split; [|reflexivity]. rewrite Y. step PS.
      step (parseRuntimeArgs_at l e q W (args_supported _ F) A3).
      step (total_at (o + 1) e (q + zlen (enc_arg_list l)) 0 ltac:(lia) ltac:(lia) ltac:(lia)). reflexivity. }
  destruct X as (o' & [(j & X & ->)|X]).
  - eexists. step X. reflexivity.
  - eexists. rewrite (bind_Fail _ _ _ _ _ _ X). reflexivity.
Qed.

(** * Sessions *)
Lemma heir_none l : heir l = None -> typed_ok is_key_type "new_validator" l.
Proof.
  unfold heir, typed_ok. destruct (find_arg (text "new_validator") l) as [a|]; [|discriminate].
  destruct (is_key_type (a_ty a)) eqn:K; [eauto|discriminate].
Qed.
Lemma heir_check l c e o : wf e -> Forall arg_ok l -> at_ e o (enc_arg_list l) -> heir l = Some c ->
  CHECK_RUNTIME_ARGTYPE (zlen l) (str "new_validator") is_pubkey e o = (Fail (code c), o).
Proof.
  intros W F A R. rewrite (CHECK_at e W l F o A _ _ _ decides_pubkey). unfold heir in R.
  destruct (find_arg (text "new_validator") l) as [a|]; [destruct (is_key_type (a_ty a)); [discriminate|]|]; injection R as <-; reflexivity.
Qed.
(** The arguments are read whatever they are. *)
Lemma delegation_args_any l e o i red ha :
  wf e -> Forall arg_ok l -> at_ e o (enc_arg_list l) -> dgeneric i = false \/ dspecial i = Generic ->
  (red = true -> typed_ok is_key_type "new_validator" l) ->
  exists j, parseDelegation_args i (zlen l) red ha e o = (Ret j, o).
Proof.
  intros W F A DG T. destruct (plain_types l) eqn:PT; [|eexists; apply (delegation_args_ill l e o i red ha W F A PT T)].
  destruct (dspecial i =? Generic) eqn:G.
  - eexists. apply delegation_args_generic; auto. left. lia.
  - destruct (has_delegation_args l) eqn:HD.
    + eexists. apply delegation_args_op; auto; [lia|]. destruct DG as [DG|DG]; [exact DG|lia].
    + eexists. apply delegation_args_generic; auto.
Qed.

Lemma stored_parses e o t ep l :
  wf e -> good_target t -> Forall arg_ok l -> good_name 99 ep -> at_ e o (enc_session (Stored t ep l)) ->
  session_refusal (Stored t ep l) = None ->
  exists r, parseDeployItem_session (ttype t) e (o + 1) = (Ret r, o + zlen (enc_session (Stored t ep l)))
            /\ totalLength (fst r) = zlen (enc_session (Stored t ep l)).
Proof.
  intros W GT F EN A R. pose proof A as A0. cbn [enc_session] in A0. rewrite enc_target_cons in A0. cbn [app] in A0.
  apply at_cons in A0. destruct A0 as [_ A0]. apply at_app in A0. destruct A0 as [_ A9].
  assert (NM : ttype t <> ModuleBytes) by (destruct t; discriminate).
  set (q := o + 1 + zlen (tbody t)) in *.
  assert (A3 : at_ e (q + zlen (lv ep) + 4) (enc_arg_list l)).
  { apply at_app in A9. destruct A9 as [_ A9]. apply (at_args _ _ _ W A9). }
  destruct (delegation_args_any l e _ (mkD (ttype t) (special_of (operation_of ep)) false 0 0 0 (q + zlen (lv ep))) (is_redelegate (operation_of ep)) true W F A3) as [j J]; [auto| |].
  { intros Q. apply redelegate_name in Q. cbn [session_refusal] in R. destruct (list_eq_dec Z.eq_dec ep (text "redelegate")); [|contradiction]. apply heir_none, R. }
  pose proof (entry_any (ttype t) ep l e q j W F EN A9 NM (fun _ => J)) as CE.
  eexists. split; [exact (stored_parse_any t ep l _ e o W GT F A CE)|reflexivity].
Qed.
Lemma stored_refused e o t ep l c :
  wf e -> good_target t -> Forall arg_ok l -> good_name 99 ep -> at_ e o (enc_session (Stored t ep l)) ->
  session_refusal (Stored t ep l) = Some c ->
  exists o', parseDeployItem_session (ttype t) e (o + 1) = (Fail (code c), o').
Proof.
  intros W GT F EN A R. pose proof (at_bound _ _ _ W A) as B. pose proof A as A0. cbn [enc_session] in A0, B. rewrite enc_target_cons in A0, B. cbn [app] in A0, B.
  rewrite zlen_cons, zlen_app in B.
  apply at_cons in A0. destruct A0 as [_ A0]. apply at_app in A0. destruct A0 as [A1 A9].
  cbn [session_refusal] in R. destruct (list_eq_dec Z.eq_dec ep (text "redelegate")) as [->|]; [|discriminate].
  set (ep := text "redelegate") in *. pose proof (zlen_nonneg (lv ep ++ enc_args l)) as NE. set (m := zlen (lv ep ++ enc_args l)) in B, NE. clearbody m. pose proof (zlen_nonneg (tbody t)).
  assert (CE : forall q k, q = o + 1 + zlen (tbody t) -> exists o', (bind (check_entrypoint (init_item (ttype t))) k : P (ditem * Z)) e q = (Fail (code c), o')).
  { intros q k ->. pose proof A9 as A8. apply at_app in A8. destruct A8 as [A2 A8]. destruct (at_args _ _ _ W A8) as (RU & A3 & ZL).
    destruct EN as [EL EN]. change (S.len ep) with (zlen ep) in EL.
    eexists. apply bind_Fail. unfold check_entrypoint. rewrite step_get_off. step (copy_item_at 100 ep e _ W A2 ltac:(lia)).
    rewrite step_get_off. step RU. apply bind_Fail. unfold name_is. rewrite cstr_id by auto.
    destruct (special_names ep) as [-> ->]. change (operation_of ep) with (Some ORedelegate).
    unfold parseDelegation. change (dtype (set_special (special_of (Some ORedelegate)) _)) with (ttype t).
    replace (ttype t =? ModuleBytes) with false by (destruct t; reflexivity).
    unfold parseDelegation_args. apply bind_Fail. change (is_redelegate (Some ORedelegate)) with true. cbv iota. apply heir_check; auto. }
  unfold parseDeployItem_session, good_target in *. destruct t as [h|n|h v|n v]; cbn [ttype] in *;
    cbv [ModuleBytes StoredVersionedContractByHash StoredContractByHash StoredVersionedContractByName StoredContractByName]; ground_eqb;
    unfold parseStoredContractByHash, parseStoredContractByName, off32, tbody in *; cbn [enc_target tl] in *;
    rewrite bind_assoc, step_get_off, bind_assoc, step_ask, step_ret;
    cbv [StoredVersionedContractByHash StoredVersionedContractByName init_item dtype]; ground_eqb; fold (init_item 1); fold (init_item 2); fold (init_item 3); fold (init_item 4).
  - change (S.len h) with (zlen h) in GT. rewrite step_advance by lia. rewrite step_ret. apply CE. lia.
  - step (parse_item_at n e _ W A1). rewrite step_ret. apply CE. lia.
  - destruct GT as [GT GV]. change (S.len h) with (zlen h) in GT. rewrite zlen_app in *. apply at_app in A1; destruct A1 as [A1 A3].
    pose proof (zlen_nonneg (enc_ver v)).
    rewrite step_advance by lia. rewrite GT in *. rewrite bind_assoc. step (version_at v e _ W GV A3). rewrite step_ret. apply CE. lia.
  - destruct GT as [GT GV]. rewrite zlen_app in *. apply at_app in A1; destruct A1 as [A1 A3]. pose proof (zlen_nonneg (enc_ver v)).
    step (parse_item_at n e _ W A1). rewrite bind_assoc. step (version_at v e _ W GV A3). rewrite step_ret. apply CE. lia.
Qed.

Lemma is_string_tag t : is_string t = (tag t =? TAG_STRING).
Proof.
  destruct t as [g| | | | | | | |]; [|reflexivity..]. unfold is_string, TAG_STRING. cbn [tag].
  destruct g as [|g|g]; [reflexivity| |reflexivity]. do 4 (destruct g as [g|g|]; try reflexivity).
Qed.
Lemma special_known nm : (if list_eqb nm (str "delegate") then Delegate else if list_eqb nm (str "undelegate") then UnDelegate
  else if list_eqb nm (str "redelegate") then ReDelegate else Generic) = special_of (operation_of nm).
Proof. destruct (special_names nm) as [Q _]. exact Q. Qed.
(** Code that has an argument auction. *)
Lemma module_auction w l e s a :
  wf e -> Forall arg_ok l -> at_ e s (enc_arg_list l) -> plain_code (Module w l) -> find_arg (text "auction") l = Some a ->
  match auction_refusal l with
  | Some c => exists o', parseDelegation_module (init_item 0) (zlen l) e s = (Fail (code c), o')
  | None => exists nm, a_val a = lv nm /\
      parseDelegation_module (init_item 0) (zlen l) e s = (Ret (mkD 0 (special_of (operation_of nm)) false 0 0 0 s, has "new_validator" l, true), s)
  end.
Proof.
  intros W F A PC FA. pose proof (at_bound _ _ _ W A) as B. pose proof (zlen_nonneg (enc_arg_list l)) as NN.
  cbn [plain_code] in PC. specialize (PC a FA).
  unfold auction_refusal. rewrite FA.
  pose proof (getData_at (text "auction") l e s W F A) as G. unfold find_arg in FA.
  destruct (lookup (text "auction") l) as [[p a']|] eqn:Lk; [|discriminate]. injection FA as ->. destruct G as [G Ga].
  assert (Av : at_ e (s + p + val_off a) (a_val a)).
  { pose proof (arg_value_at _ _ _ _ Ga) as Y. apply at_app in Y. tauto. }
  pose proof (at_bound _ _ _ W Av) as Bv. pose proof (zlen_nonneg (a_val a)) as Nv.
  change (S.len (a_val a)) with (zlen (a_val a)).
  rewrite is_string_tag in *. destruct (tag (a_ty a) =? TAG_STRING) eqn:TG.
  2: { exists (s + p + val_off a). unfold parseDelegation_module. rewrite step_get_off.
    match goal with |- bind _ ?k _ _ = _ => destruct (search_try "new_validator" l e s k W F A) as (r & Hr & Er) end.
    etransitivity; [exact Hr|]. clear Hr. cbv zeta. change (str "auction") with (text "auction"). rewrite (step_try_ok _ _ _ _ _ _ G). cbn [fst snd].
    apply bind_Fail, bind_Fail. unfold check. rewrite TG. reflexivity. }
  destruct (PC eq_refl) as [nm Vl].
  destruct (zlen (a_val a) <=? 100) eqn:Ln.
  2: { exists (s + p + val_off a). unfold parseDelegation_module. rewrite step_get_off.
    match goal with |- bind _ ?k _ _ = _ => destruct (search_try "new_validator" l e s k W F A) as (r & Hr & Er) end.
    etransitivity; [exact Hr|]. clear Hr. cbv zeta. change (str "auction") with (text "auction"). rewrite (step_try_ok _ _ _ _ _ _ G). cbn [fst snd].
    apply bind_Fail. rewrite step_check by exact TG. rewrite step_get_off, step_ask. apply bind_Fail. unfold check. rewrite Ln. reflexivity. }
  exists nm. split; [exact Vl|]. unfold parseDelegation_module. rewrite step_get_off.
  match goal with |- bind _ ?k _ _ = _ => destruct (search_try "new_validator" l e s k W F A) as (r & Hr & Er) end.
  etransitivity; [exact Hr|]. clear Hr. cbv zeta. rewrite Er. change (str "auction") with (text "auction"). rewrite (step_try_ok _ _ _ _ _ _ G). cbn [fst snd].
  rewrite bind_assoc, step_check by exact TG.
  rewrite bind_assoc, step_get_off, bind_assoc, step_ask, bind_assoc, step_check by (rewrite u32_small; lia).
  rewrite step_ret. rewrite Vl in Av, Ln, Nv, Bv. rewrite zlen_lv in *. apply at_lv in Av. destruct Av as [Av1 Av2].
  pose proof (zlen_nonneg nm).
  step (readU32_at (zlen nm) e _ W Av1 ltac:(lia)). rewrite step_get_off, (step_at _ _ nm) by (auto; lia).
  unfold require. replace (zlen nm <=? 100) with true by lia. rewrite step_ret.
  rewrite special_known. rewrite step_set_off by lia. reflexivity.
Qed.
Lemma module_verdict e o w l n post :
  wf e -> wasm e = false -> Forall arg_ok l -> plain_code (Module w l) ->
  at_ e o (enc_session (Module w l) ++ le 4 n ++ post) -> tail_ok n post ->
  match session_refusal (Module w l) with
  | Some c => exists o', parseDeployItem_session 0 e (o + 1) = (Fail (code c), o')
  | None => exists r, parseDeployItem_session 0 e (o + 1) = (Ret r, o + zlen (enc_session (Module w l)))
              /\ totalLength (fst r) = zlen (enc_session (Module w l))
  end.
Proof.
  intros W NW F HA A TK. apply at_app in A. destruct A as [A AT].
  pose proof (at_bound _ _ _ W A) as B. set (tot := zlen (enc_session (Module w l))) in *.
  cbn [enc_session] in *. apply at_cons in A. destruct A as [_ A]. apply at_app in A. destruct A as [A1 A2].
  destruct (at_args _ _ _ W A2) as (RU & A3 & ZL).
  assert (TOT : tot = 1 + (4 + zlen w + (4 + zlen (enc_arg_list l)))) by (unfold tot; rewrite zlen_cons, zlen_app, zlen_lv, ZL; reflexivity).
  rewrite zlen_lv in *. pose proof (zlen_nonneg w). pose proof (zlen_nonneg (enc_arg_list l)).
  set (s := o + 1 + (4 + zlen w) + 4) in *.
  assert (AT' : at_ e (s + zlen (enc_arg_list l)) (le 4 n ++ post)).
  { replace (s + zlen (enc_arg_list l)) with (o + tot) by lia. exact AT. }
  assert (MP : match auction_refusal l with
    | Some c => exists o', parseDelegation_module (init_item 0) (zlen l) e s = (Fail (code c), o')
    | None => exists j b, parseDelegation_module (init_item 0) (zlen l) e s = (Ret (j, has "new_validator" l, b), s) /\ (dgeneric j = false \/ dspecial j = Generic)
    end).
  { destruct (find_arg (text "auction") l) as [a|] eqn:FA.
    - pose proof (module_auction w l e s a W F A3 HA FA) as Q. destruct (auction_refusal l); [exact Q|].
      destruct Q as (nm & _ & Q). eauto 6.
    - assert (R : auction_refusal l = None) by (unfold auction_refusal; rewrite FA; reflexivity). rewrite R.
      do 2 eexists. split; [apply (module_plain l e s n post W NW F A3 AT' TK ltac:(lia)); unfold has; rewrite FA; reflexivity|right; reflexivity]. }
  assert (PD : match session_refusal (Module w l) with
               | Some c => exists o', parseDelegation (init_item 0) (zlen l) false e s = (Fail (code c), o')
               | None => exists j, parseDelegation (init_item 0) (zlen l) false e s = (Ret j, s)
               end).
  { unfold parseDelegation. change (dtype (init_item 0) =? ModuleBytes) with true. cbv iota.
    cbn [session_refusal]. destruct (auction_refusal l) as [c|].
    { destruct MP as [o' MP]. exists o'. apply bind_Fail, MP. }
    destruct MP as (j0 & b & MP & DG). destruct (typed_if_present is_key_type "new_validator" l) eqn:TY.
    - destruct (delegation_args_any l e s j0 (has "new_validator" l) b W F A3) as [j J]; auto.
      { intros Q. apply has_typed; auto. }
      exists j. step MP. exact J.
    - exists s. step MP. cbn [fst snd]. unfold parseDelegation_args. apply bind_Fail. unfold typed_if_present in TY. unfold has.
      destruct (find_arg (text "new_validator") l) as [a|] eqn:FA; [|discriminate].
      apply heir_check; auto. unfold heir. rewrite FA, TY. reflexivity. }
  unfold parseDeployItem_session. change (0 =? ModuleBytes) with true. cbv iota.
  unfold parseModuleBytes_session, off32. destruct (session_refusal (Module w l)) as [c|].
  - destruct PD as [o' PD]. exists o'. rewrite !bind_assoc, step_get_off, !bind_assoc, step_ask, step_ret.
    rewrite !bind_assoc. step (parse_item_at w e _ W A1). rewrite zlen_lv. rewrite !bind_assoc. step RU.
    rewrite !bind_assoc. rewrite (bind_Fail _ _ _ _ _ _ PD). reflexivity.
  - destruct PD as [j J]. eexists. split.
    + rewrite !bind_assoc, step_get_off, !bind_assoc, step_ask, step_ret.
      rewrite !bind_assoc. step (parse_item_at w e _ W A1). rewrite zlen_lv. rewrite !bind_assoc. step RU.
      rewrite !bind_assoc. step J. rewrite !bind_assoc. step (parseRuntimeArgs_at l e s W (args_supported _ F) A3).
      rewrite !bind_assoc. step (total_at (o + 1) e (s + zlen (enc_arg_list l)) 0 ltac:(lia) ltac:(lia) ltac:(lia)).
      rewrite !step_ret. cbv [ret]. apply pair_ret; [reflexivity|lia].
    + dcbn. cbn [fst]. dcbn. lia.
Qed.

(** Different names, different arguments. *)
Lemma has_in name l : has name l = true -> In (text name) (List.map a_name l).
Proof.
  unfold has. destruct (find_arg (text name) l) as [a|] eqn:E; [|discriminate]. intros _. apply (find_name _ _ _ E).
Qed.
Lemma several ns l : NoDup (List.map text ns) -> Forall (fun n => has n l = true) ns -> zlen ns <= zlen l.
Proof.
  intros N F. unfold zlen. apply inj_le. rewrite <- (map_length text ns), <- (map_length a_name l).
  apply NoDup_incl_length; [exact N|]. intros t I. apply in_map_iff in I. destruct I as (n & <- & I). rewrite Forall_forall in F. apply has_in, F, I.
Qed.
Ltac distinct := repeat first [apply NoDup_nil | apply NoDup_cons; [intros DI; vm_compute in DI; repeat destruct DI as [DI|DI]; try discriminate DI; exact DI|]].
Lemma typed_has ok name l : SB.typed ok name l = true -> has name l = true.
Proof. unfold SB.typed, has. destruct (find_arg (text name) l); [reflexivity|discriminate]. Qed.

(** When all the arguments of a transfer are expected, their number is what the
    device finds. *)
Lemma full_args l e o :
  wf e -> Forall arg_ok l -> at_ e o (enc_arg_list l) -> SB.typed motes_type "amount" l = true -> zlen l <= known l ->
  zlen l = known l /\ checkNativeTransferArgs (zlen l) e o = (Ret (known l), o).
Proof.
  intros W F A Ta KN. pose proof (typed_ok_of _ _ _ Ta) as TA.
  unfold checkNativeTransferArgs. step (CHECK_ok e W l F o A _ _ _ decides_u512 TA).
  step (COUNT_ok e W l F o A _ _ _ 0 decides_u512 TA). change (u16 (0 + 1)) with 1.
  pose proof (typed_has _ _ _ Ta) as Ha.
  unfold known in *. change (S.len l) with (zlen l) in *. rewrite Ta in *.
  pose proof (fun f => COUNT_at e W l F o A "id" _ _ f decides_id) as S1.
  pose proof (fun f => COUNT_at e W l F o A "target" _ _ f decides_account) as S2.
  pose proof (fun f => COUNT_at e W l F o A "source" _ _ f decides_account) as S3.
  assert (N1 : 1 <= zlen l) by (apply (several (["amount"])%string l); [distinct|auto]).
  assert (N2 : forall a, In a (["id"; "target"; "source"])%string -> has a l = true -> 2 <= zlen l).
  { intros a I X. apply (several (["amount"; a])%string l); [destruct I as [<-|[<-|[<-|[]]]]; distinct|auto]. }
  assert (N3 : forall a b, In (a, b) ([("id", "target"); ("id", "source"); ("target", "source")])%string -> has a l = true -> has b l = true -> 3 <= zlen l).
  { intros a b I X Y. apply (several (["amount"; a; b])%string l); [destruct I as [I|[I|[I|[]]]]; injection I as <- <-; distinct|auto]. }
  assert (N4 : has "id" l = true -> has "target" l = true -> has "source" l = true -> 4 <= zlen l).
  { intros X Y U. apply (several (["amount"; "id"; "target"; "source"])%string l); [distinct|auto]. }
  pose proof (N2 "id"%string ltac:(cbn; auto)) as Ni. pose proof (N2 "target"%string ltac:(cbn; auto)) as Nt. pose proof (N2 "source"%string ltac:(cbn; auto)) as Ns.
  pose proof (N3 "id"%string "target"%string ltac:(cbn; auto)) as Nit. pose proof (N3 "id"%string "source"%string ltac:(cbn; auto)) as Nis. pose proof (N3 "target"%string "source"%string ltac:(cbn; auto)) as Nts.
  clear N2 N3. unfold SB.typed, has in *.
  destruct (find_arg (text "id") l) as [a1|]; [destruct (is_id_type (a_ty a1))|]; rewrite ?(bind_Ret _ _ _ _ _ _ (S1 _));
  (destruct (find_arg (text "target") l) as [a2|]; [destruct (is_account_type (a_ty a2))|]); rewrite ?(bind_Ret _ _ _ _ _ _ (S2 _));
  (destruct (find_arg (text "source") l) as [a3|]; [destruct (is_account_type (a_ty a3))|]);
  repeat match goal with
         | H : true = true -> _ |- _ => specialize (H eq_refl)
         | H : false = true -> _ |- _ => clear H
         end;
  destruct (zlen l =? 4) eqn:E4; cbn [andb] in *; rewrite ?(bind_Ret _ _ _ _ _ _ (S3 _));
  first [exfalso; lia | split; [lia|reflexivity]].
Qed.

Lemma known_at_most l : SB.typed motes_type "amount" l = true -> zlen l <= known l -> zlen l = known l.
Proof.
  intros Ta KN. pose proof (typed_has _ _ _ Ta) as Ha. unfold known in *. change (S.len l) with (zlen l) in *. rewrite Ta in *.
  destruct (zlen l =? 4) eqn:E4; cbn [andb] in *.
  - repeat match goal with |- context [if ?b then _ else _] => destruct b end; lia.
  - destruct (SB.typed is_id_type "id" l) eqn:Ti, (SB.typed is_account_type "target" l) eqn:Tt.
    + pose proof (several (["amount"; "id"; "target"])%string l ltac:(distinct) ltac:(repeat constructor; eauto using typed_has)) as Q. change (zlen (["amount"; "id"; "target"])%string) with 3 in Q. lia.
    + pose proof (several (["amount"; "id"])%string l ltac:(distinct) ltac:(repeat constructor; eauto using typed_has)) as Q. change (zlen (["amount"; "id"])%string) with 2 in Q. lia.
    + pose proof (several (["amount"; "target"])%string l ltac:(distinct) ltac:(repeat constructor; eauto using typed_has)) as Q. change (zlen (["amount"; "target"])%string) with 2 in Q. lia.
    + pose proof (several (["amount"])%string l ltac:(distinct) ltac:(repeat constructor; eauto using typed_has)) as Q. change (zlen (["amount"])%string) with 1 in Q. lia.
Qed.

Lemma transfer_verdict e o l :
  wf e -> Forall arg_ok l -> at_ e o (enc_session (SD.Transfer l)) ->
  match session_refusal (SD.Transfer l) with
  | Some c => exists o', parseDeployItem_session 5 e (o + 1) = (Fail (code c), o')
  | None => exists r, parseDeployItem_session 5 e (o + 1) = (Ret r, o + zlen (enc_session (SD.Transfer l)))
              /\ totalLength (fst r) = zlen (enc_session (SD.Transfer l))
  end.
Proof.
  intros W F A. pose proof A as A'. pose proof (at_bound _ _ _ W A) as B. set (tot := zlen (enc_session (SD.Transfer l))) in *. cbn [enc_session] in A.
  apply at_cons in A. destruct A as [_ A].
  destruct (at_args _ _ _ W A) as (RU & A1 & ZL). pose proof (zlen_nonneg (enc_arg_list l)) as NN.
  assert (ZS : tot = 5 + zlen (enc_arg_list l)) by (unfold tot; cbn [enc_session]; rewrite zlen_cons; lia).
  assert (PT : parseDeployItem_session 5 e (o + 1) =
               (i <- parseTransfer (init_item 5) ;; ret (i, 0)) e (o + 1)) by reflexivity.
  assert (Y : parseTransfer (init_item 5) e (o + 1) =
              (i <- parseNativeTransfer (init_item 5) (zlen l) ;; parseRuntimeArgs (zlen l) ;;
               t <- parseTotalLength (o + 1 + 65536 * hi16 e) ;; ret (set_total t (set_special NativeTransfer i))) e (o + 1 + 4)).
  { unfold parseTransfer, off32. rewrite bind_assoc, step_get_off, bind_assoc, step_ask, step_ret. step RU. reflexivity. }
  assert (NT : match session_refusal (SD.Transfer l) with
               | Some c => parseNativeTransfer (init_item 5) (zlen l) e (o + 1 + 4) = (Fail (code c), o + 1 + 4)
               | None => exists j, parseNativeTransfer (init_item 5) (zlen l) e (o + 1 + 4) = (Ret j, o + 1 + 4)
               end).
  { cbn [session_refusal]. unfold parseNativeTransfer. change (S.len l) with (zlen l).
    destruct (find_arg (text "amount") l) as [a|] eqn:FA; [destruct (motes_type (a_ty a)) eqn:MT|].
    - assert (Ta : SB.typed motes_type "amount" l = true) by (unfold SB.typed; rewrite FA; exact MT).
      destruct (Z_lt_le_dec (known l) (zlen l)) as [KL|KL].
      + replace (known l =? zlen l) with false by lia. cbn [andb].
        destruct (odd_args l e _ W F A1 (conj Ta KL)) as (k & CK & KB).
        eexists. step CK. cbv zeta.
        assert (ZLL : zlen l <= zlen (enc_arg_list l)).
        { clear. induction l as [|a l IH]; [unfold zlen; cbn; lia|]. rewrite enc_arg_list_cons, zlen_app, zlen_cons.
          unfold enc_arg at 1. rewrite zlen_app, zlen_lv. pose proof (zlen_nonneg (a_name a)). pose proof (zlen_nonneg (lv (a_val a) ++ enc_type (a_ty a))). lia. }
        rewrite u32_small by lia. replace (zlen l - k =? 0) with false by lia. reflexivity.
      + destruct (full_args l e _ W F A1 Ta KL) as [EQ CK]. rewrite <- EQ in *. rewrite Z.eqb_refl. cbn [andb].
        assert (K4 : 0 <= zlen l <= 4).
        { rewrite EQ. unfold known. repeat match goal with |- context [if ?b then _ else _] => destruct b end; lia. }
        destruct (zlen l <? 3) eqn:L3; [|eexists]; step CK; cbv zeta; rewrite Z.sub_diag; change (u32 0 =? 0) with true; cbn [andb].
        * replace ((zlen l =? 3) || (zlen l =? 4)) with false by lia. reflexivity.
        * replace ((zlen l =? 3) || (zlen l =? 4)) with true by lia. rewrite step_ask. reflexivity.
    - apply bind_Fail. unfold checkNativeTransferArgs. apply bind_Fail.
      rewrite (CHECK_at e W l F _ A1 "amount" _ _ decides_u512), FA. change (match a_ty a with Prim 8 => true | _ => false end) with (motes_type (a_ty a)). rewrite MT. reflexivity.
    - apply bind_Fail. unfold checkNativeTransferArgs. apply bind_Fail.
      rewrite (CHECK_at e W l F _ A1 "amount" _ _ decides_u512), FA. reflexivity. }
  destruct (session_refusal (SD.Transfer l)) as [c|].
  - eexists. rewrite PT. rewrite (bind_Fail _ _ _ _ _ _ (eq_trans Y (bind_Fail _ _ _ _ _ _ NT))). reflexivity.
  - destruct NT as [j J]. eexists. split.
    + rewrite PT. assert (X : parseTransfer (init_item 5) e (o + 1) = (Ret (set_total tot (set_special NativeTransfer j)), o + tot)).
      { rewrite Y. step J. step (parseRuntimeArgs_at l e _ W (args_supported _ F) A1).
        step (total_at (o + 1) e (o + 1 + 4 + zlen (enc_arg_list l)) 0 ltac:(lia) ltac:(lia) ltac:(lia)).
        cbv [ret]. apply pair_ret; [f_equal|]; lia. }
      step X. reflexivity.
    + reflexivity.
Qed.

Lemma session_verdict e o i n r :
  wf e -> wasm e = false -> fit i -> plain_code i -> at_ e o (enc_session i ++ r) ->
  (forall w l, i = Module w l -> exists post, r = le 4 n ++ post /\ tail_ok n post) ->
  match session_refusal i with
  | Some c => exists o', parseDeployItem_session (stype i) e (o + 1) = (Fail (code c), o')
  | None => exists v, parseDeployItem_session (stype i) e (o + 1) = (Ret v, o + zlen (enc_session i))
              /\ totalLength (fst v) = zlen (enc_session i)
  end.
Proof.
  intros W NW FI PC A FM. pose proof (fit_args _ FI) as F. destruct FI as [_ FI]. destruct i as [w l|t ep l|l]; cbn [args_of plain_code stype] in *.
  - destruct (FM w l eq_refl) as (post & -> & TK). eapply module_verdict; eauto.
  - apply at_app in A. destruct FI as [GT EN]. destruct (session_refusal (Stored t ep l)) as [c|] eqn:R.
    + eapply stored_refused; eauto. tauto.
    + eapply stored_parses; eauto. tauto.
  - apply at_app in A. apply transfer_verdict; tauto.
Qed.

(** * Whole deploys *)
Definition read_rest (v : header_deploy) : P Deploy.deploy :=
  pay <- read_payment ;;
  t <- parseDeployType ;;
  s <- parseDeployItem_session t ;;
  ret (mkDeploy v pay (fst s) (snd s)).
Lemma head_read e h hh r : wf e -> good_header h -> zlen hh = 32 -> at_ e 0 (enc_header h ++ hh ++ r) ->
  parser_read_deploy e 0 = read_rest (hdr h) e (zlen (enc_header h) + 32).
Proof.
  intros W G H32 A. pose proof (at_bound _ _ _ W A) as B. rewrite !zlen_app in B. rewrite at_app in A. destruct A as [AH _].
  pose proof (header_at_ok e h W G AH) as HA. destruct HA as [HL HPK HDL HK HT1 HT2 HG HB HD HC HALL HEND].
  pose proof (zlen_nonneg (enc_header h)). pose proof (zlen_nonneg r).
  unfold parser_read_deploy. rewrite step_ask, step_check by lia.
  assert (A0 : at_ e 0 [h_alg h]) by (apply (proj1 (at_app e 0 [h_alg h] _)) in HK; tauto).
  step (readU8_at _ e _ W A0). pose proof (gh_alg _ G) as GA. rewrite step_check by lia.
  pose proof (zlen_nonneg (h_deps h)). pose proof (zlen_nonneg (h_chain h)). pose proof (zlen_nonneg (h_key h)).
  assert (RH : forall o, read_header_counts (h_alg h) e o
               = (Ret (hdr h), pubkeyLen (hdr h) + 56 + depsLen (hdr h) + 4)).
  { intros o. unfold read_header_counts. rewrite (index_at _ _ _ _ _ _ _ W HD) by reflexivity.
    rewrite zlen_lv in HEND.
    step (readU32_at _ e _ W HD ltac:(lia)).
    rewrite (index_at _ _ _ _ _ _ _ W HC) by reflexivity.
    apply at_lv in HC. destruct HC as [HC _].
    step (readU32_at _ e _ W HC ltac:(lia)). reflexivity. }
  step (RH (0 + 1)). rewrite HL. change BLAKE2B_256_SIZE with 32. rewrite step_set_off by lia. reflexivity.
Qed.

Lemma tx_fails pf x data c o' : 0 < zlen data < 65535 ->
  parser_read_deploy (ctx_of pf x false 40 data (zlen data)) 0 = (Fail c, o') -> tx_parse pf x (0 :: data) = Fail c.
Proof.
  intros L E. unfold tx_parse.
  assert (ZT : u16 (zlen (0 :: data)) = 1 + zlen data) by (rewrite zlen_cons, u16_small; lia).
  rewrite ZT. replace (1 + zlen data =? 0) with false by lia. replace (1 + zlen data =? 1) with false by lia.
  replace (1 + zlen data - 1) with (zlen data) by lia. unfold parse_content. change (0 =? content_Deploy) with true. cbv iota.
  rewrite (bind_Fail _ _ _ _ _ _ (bind_Fail _ _ _ _ _ _ E)). reflexivity.
Qed.
Lemma tx_invalid pf x data v c o o' : 0 < zlen data < 65535 ->
  parser_read_deploy (ctx_of pf x false 40 data (zlen data)) 0 = (Ret v, o) ->
  validateTxDeploy v (ctx_of pf x false 40 data (zlen data)) o = (Fail c, o') -> tx_parse pf x (0 :: data) = Fail c.
Proof.
  intros L E V. unfold tx_parse.
  assert (ZT : u16 (zlen (0 :: data)) = 1 + zlen data) by (rewrite zlen_cons, u16_small; lia).
  rewrite ZT. replace (1 + zlen data =? 0) with false by lia. replace (1 + zlen data =? 1) with false by lia.
  replace (1 + zlen data - 1) with (zlen data) by lia. unfold parse_content. change (0 =? content_Deploy) with true. cbv iota.
  rewrite bind_assoc. step E. rewrite step_ret. unfold parser_validate. rewrite bind_assoc.
  rewrite (bind_Fail _ _ _ _ _ _ V). reflexivity.
Qed.
Lemma env_wf pf x data : hash32 (p_hash pf) -> bytes data -> zlen data < 65535 ->
  wf (ctx_of pf x false 40 data (zlen data)) /\ at_ (ctx_of pf x false 40 data (zlen data)) 0 data.
Proof.
  intros Hh B L. split.
  - constructor; cbn [mem blen hash ctx_of]; [reflexivity | lia | exact B | intros y; apply Hh | intros y; apply Hh].
  - apply slice_Some. exists [], []. rewrite app_nil_r. split; [reflexivity | split; reflexivity].
Qed.
Lemma head_pos h hh r : zlen hh = 32 -> 0 < zlen (enc_header h ++ hh ++ r).
Proof. intros E. rewrite !zlen_app. pose proof (zlen_nonneg (enc_header h)). pose proof (zlen_nonneg r). lia. Qed.

Section deploy.
Variables (pf : platform) (x : bool) (h : SD.header) (hh : list Z).
Hypotheses (Hh : hash32 (p_hash pf)) (G : good_header h) (H32 : S.len hh = 32).
Let from (r : list Z) : list Z := enc_header h ++ hh ++ r.
Lemma payment_type_verdict t r : 0 < t < 256 -> bytes (from (t :: r)) -> S.len (from (t :: r)) < 65535 ->
  tx_parse pf x (0 :: from (t :: r)) = Fail (if t <=? NUM_DEPLOY_TYPES then parser_unexpected_type else parser_value_out_of_range).
Proof.
  intros T B L. destruct (env_wf pf x _ Hh B L) as [W A]. pose proof A as A0. unfold from in A0. rewrite !at_app in A0. destruct A0 as (_ & _ & A0).
  change (zlen hh) with (S.len hh) in A0. rewrite H32 in A0. apply (proj1 (at_app _ _ [t] r)) in A0. destruct A0 as [A0 _].
  destruct (payment_type_refused _ _ t W A0 T) as (o' & R).
  eapply tx_fails; [split; [apply head_pos, H32|exact L]|]. rewrite (head_read _ h hh _ W G H32 A). unfold read_rest. apply bind_Fail. exact R.
Qed.
Lemma payment_verdict w l c r : let data := from ((0 :: lv w ++ enc_args l) ++ r) in
  Forall good_arg l -> bytes data -> S.len data < 65535 -> payment_refusal l = Some c -> tx_parse pf x (0 :: data) = Fail (code c).
Proof.
  intros data F B L P. destruct (env_wf pf x _ Hh B L) as [W A]. pose proof A as A0. unfold data, from in A0. rewrite !at_app in A0. destruct A0 as (_ & _ & A0 & _).
  change (zlen hh) with (S.len hh) in A0. rewrite H32 in A0.
  destruct (payment_refused l w c _ _ W (good_arg_ok _ F) A0 P) as (o' & R).
  eapply tx_fails; [split; [apply head_pos, H32|exact L]|]. rewrite (head_read _ h hh _ W G H32 A). unfold read_rest. apply bind_Fail. exact R.
Qed.
Lemma session_type_verdict p t r : let data := from (enc_payment p ++ t :: r) in
  5 < t < 256 -> bytes data -> S.len data < 65535 ->
  tx_parse pf x (0 :: data) = Fail (if t <=? NUM_DEPLOY_TYPES then parser_context_mismatch else parser_value_out_of_range).
Proof.
  intros data T B L. destruct (env_wf pf x _ Hh B L) as [W A]. pose proof A as A0. unfold data, from in A0. rewrite !at_app in A0. destruct A0 as (_ & _ & AP & A0).
  change (zlen hh) with (S.len hh) in *. rewrite H32 in *. apply (proj1 (at_app _ _ [t] r)) in A0. destruct A0 as [A0 _].
  assert (R : exists o', read_rest (hdr h) (ctx_of pf x false 40 data (zlen data)) (zlen (enc_header h) + 32)
                         = (Fail (if t <=? NUM_DEPLOY_TYPES then parser_context_mismatch else parser_value_out_of_range), o')).
  { unfold read_rest. rewrite Z.add_0_l in *. rewrite (bind_Ret _ _ _ _ _ _ (payment_at _ _ _ W AP)).
    unfold parseDeployType. rewrite bind_assoc. rewrite (bind_Ret _ _ _ _ _ _ (readU8_at t _ _ W A0)).
    rewrite bind_assoc. unfold check at 1. destruct (t <=? NUM_DEPLOY_TYPES) eqn:E.
    - rewrite !step_ret. unfold NUM_DEPLOY_TYPES in E. assert (t = 6) as -> by lia. eexists. reflexivity.
    - eexists. reflexivity. }
  destruct R as (o' & R). eapply tx_fails; [split; [apply head_pos, H32|exact L]|]. rewrite (head_read _ h hh _ W G H32 A). exact R.
Qed.
Variables (p : SD.payment) (i : session) (n : Z) (r : list Z).
Hypotheses (FI : fit i) (PC : plain_code i) (TR : SR.trailing false i n r).
Let data := from (enc_payment p ++ enc_session i ++ r).
Hypotheses (B : bytes data) (L : S.len data < 65535).
Lemma session_read :
  match session_refusal i with
  | Some c => exists o', parser_read_deploy (ctx_of pf x false 40 data (zlen data)) 0 = (Fail (code c), o')
  | None => exists v o', parser_read_deploy (ctx_of pf x false 40 data (zlen data)) 0 = (Ret (mkDeploy (hdr h) (pay_item p) (fst v) (snd v)), o')
                 /\ totalLength (fst v) = zlen (enc_session i)
  end.
Proof.
  destruct (env_wf pf x _ Hh B L) as [W A]. set (e := ctx_of pf x false 40 data (zlen data)) in *.
  pose proof A as A0. unfold data, from in A0. rewrite !at_app in A0. destruct A0 as (_ & _ & AP & AS & AR).
  change (zlen hh) with (S.len hh) in *. rewrite H32 in *. rewrite Z.add_0_l in *. set (o := zlen (enc_header h) + 32 + zlen (enc_payment p)) in *.
  assert (V : match session_refusal i with
              | Some c => exists o', parseDeployItem_session (stype i) e (o + 1) = (Fail (code c), o')
              | None => exists v, parseDeployItem_session (stype i) e (o + 1) = (Ret v, o + zlen (enc_session i))
                          /\ totalLength (fst v) = zlen (enc_session i)
              end).
  { apply (session_verdict e o i n r); auto.
    - apply at_app. auto.
    - intros w l Q. apply (fo_module _ _ _ _ (trailing_follows false (p_hash pf) h p i n r TR) w l Q). }
  rewrite (head_read _ h hh _ W G H32 A). unfold read_rest.
  destruct (enc_session_hd i) as [rs ES].
  assert (AT : at_ e o [stype i]) by (rewrite ES in AS; apply (proj1 (at_app e _ [stype i] rs)) in AS; tauto).
  assert (Y : forall k : Z -> P Deploy.deploy, bind parseDeployType k e o = k (stype i) e (o + 1)).
  { intros k. unfold parseDeployType at 1. rewrite bind_assoc. step (readU8_at _ e _ W AT).
    rewrite bind_assoc, step_check by (destruct i as [| [] |]; reflexivity). rewrite step_ret. reflexivity. }
  destruct (session_refusal i) as [c|].
  - destruct V as (o' & V). exists o'. step (payment_at _ e _ W AP). rewrite Y. apply bind_Fail, V.
  - destruct V as (v & V & T). exists v. eexists. split; [|exact T]. step (payment_at _ e _ W AP). rewrite Y. step V. reflexivity.
Qed.
Lemma session_refused_verdict c : session_refusal i = Some c -> tx_parse pf x (0 :: data) = Fail (code c).
Proof.
  intros R. pose proof session_read as S0. rewrite R in S0. destruct S0 as (o' & S0).
  eapply tx_fails; [split; [apply head_pos, H32|exact L]|exact S0].
Qed.
Lemma hash_verdict : session_refusal i = None ->
  hh <> p_hash pf (enc_header h) \/ h_bodyhash h <> p_hash pf (enc_payment p ++ enc_session i) ->
  tx_parse pf x (0 :: data) = Fail parser_context_mismatch.
Proof.
  intros R N. pose proof session_read as S0. rewrite R in S0. destruct S0 as (v & o & S0 & T).
  destruct (env_wf pf x _ Hh B L) as [W A]. set (e := ctx_of pf x false 40 data (zlen data)) in *.
  pose proof (at_bound _ _ _ W A) as BD. unfold data, from in BD. rewrite !zlen_app in BD.
  pose proof A as A0. unfold data, from in A0. rewrite !at_app in A0. destruct A0 as (AH & AX & AP & AS & AR).
  change (zlen hh) with (S.len hh) in *. rewrite H32 in *. rewrite Z.add_0_l in *.
  assert (AB : at_ e (zlen (enc_header h) + 32) (enc_payment p ++ enc_session i)) by (apply at_app; auto).
  pose proof (zlen_nonneg (enc_header h)). pose proof (zlen_nonneg r). pose proof (zlen_nonneg (enc_session i)). pose proof (zlen_nonneg (enc_payment p)).
  pose proof (header_at_ok e h W G AH) as HA. destruct HA as [HL HPK HDL HK HT1 HT2 HG HB HD HC HALL HEND].
  assert (V : exists o', validateTxDeploy (mkDeploy (hdr h) (pay_item p) (fst v) (snd v)) e o = (Fail parser_context_mismatch, o')).
  { unfold validateTxDeploy. cbn [dheader Deploy.payment Deploy.session]. rewrite HL.
    rewrite step_ask. rewrite (step_at _ _ _ _ _ _ HALL) by reflexivity. rewrite (step_at _ _ _ _ _ _ AX) by (symmetry; exact H32).
    destruct (list_eqb (p_hash pf (enc_header h)) hh) eqn:E1.
    - apply list_eqb_eq in E1. destruct N as [N|N]; [congruence|].
      rewrite step_check by (apply list_eqb_eq; exact E1).
      rewrite u16_small by lia. cbn [totalLength pay_item]. rewrite T.
      rewrite u32_small by lia. rewrite (step_at _ _ _ _ _ _ AB) by (rewrite zlen_app; reflexivity).
      rewrite (index_at _ _ _ _ _ _ _ W HB) by reflexivity.
      rewrite step_get_off. pose proof (gh_bodyhash _ G) as GB. change (S.len (h_bodyhash h)) with (zlen (h_bodyhash h)) in GB.
      rewrite (step_at _ _ _ _ _ _ HB) by (symmetry; exact GB).
      destruct (list_eqb (hash e (enc_payment p ++ enc_session i)) (h_bodyhash h)) eqn:E2.
      + apply list_eqb_eq in E2. exfalso. apply N. symmetry. exact E2.
      + eexists. reflexivity.
    - eexists. apply bind_Fail. unfold check. change (hash e) with (p_hash pf). rewrite E1. reflexivity. }
  destruct V as (o' & V). eapply tx_invalid; [split; [apply head_pos, H32|exact L]|exact S0|exact V].
Qed.
End deploy.

(** * Acceptance *)
Lemma sound_key l name label a : find_arg (text name) l = Some a -> is_key_type (a_ty a) = true -> valid is_key_type arg_view name l ->
  exists r, key_arg label name l = Some r.
Proof.
  intros FA T V. unfold key_arg, want, only. rewrite FA, T. destruct (arg_view (a_ty a) (a_val a)) eqn:E; [eauto|]. exfalso. exact (V a FA T E).
Qed.
Lemma sound_amount l label : has "amount" l = true -> typed_if_present is_amount_type "amount" l = true -> valid is_amount_type amount_view "amount" l ->
  exists r, want (only is_amount_type amount_view) label "amount" l = Some r.
Proof.
  unfold has, typed_if_present, want, only. destruct (find_arg (text "amount") l) as [a|] eqn:FA; [|discriminate]. intros _ T V. rewrite T.
  destruct (amount_view (a_ty a) (a_val a)) eqn:E; [eauto|]. exfalso. exact (V a FA T E).
Qed.
Lemma sound_arg ok l name label : SB.typed ok name l = true -> valid ok arg_view name l -> exists r, want (only ok arg_view) label name l = Some r.
Proof.
  unfold SB.typed, want, only. destruct (find_arg (text name) l) as [a|] eqn:FA; [|discriminate]. intros T V. rewrite T.
  destruct (arg_view (a_ty a) (a_val a)) eqn:E; [eauto|]. exfalso. exact (V a FA T E).
Qed.
Lemma key_present name l label : has name l = true -> typed_if_present is_key_type name l = true -> valid is_key_type arg_view name l ->
  exists r, key_arg label name l = Some r.
Proof.
  unfold has, typed_if_present. destruct (find_arg (text name) l) as [a|] eqn:FA; [|discriminate]. intros _ T V. eapply sound_key; eauto.
Qed.
Lemma delegation_shown o l : sound l -> has_delegation_args l = true -> plain_types l = true ->
  (o = ORedelegate -> has "new_validator" l = true /\ typed_if_present is_key_type "new_validator" l = true) ->
  exists r, delegation_review o l = Some r.
Proof.
  intros SO HD PT HN. unfold has_delegation_args in HD. unfold plain_types in PT. rewrite !andb_true_iff in HD, PT. destruct HD as [[Ha Hd] Hv]. destruct PT as [[Ta Td] Tv].
  destruct (sound_amount l "Amount" Ha Ta (s_amount _ SO)) as [ra Ra].
  destruct (key_present "delegator" l "Delegator" Hd Td (s_delegator _ SO)) as [rd Rd].
  unfold delegation_review. destruct o.
  3: { destruct (HN eq_refl) as [Hn Tn].
    destruct (key_present "validator" l "Old" Hv Tv (s_validator _ SO)) as [rv Rv].
    destruct (key_present "new_validator" l "New" Hn Tn (s_heir _ SO)) as [rn Rn].
    rewrite Ra, Rd, Rv, Rn. eexists. reflexivity. }
  all: destruct (key_present "validator" l "Validator" Hv Tv (s_validator _ SO)) as [rv Rv]; rewrite Ra, Rd, Rv; eexists; reflexivity.
Qed.
Lemma generic_shown l : sound l -> plain_types l = true -> exists r, generic_args_review l = Some r.
Proof.
  intros SO PT. unfold generic_args_review. destruct (has "amount" l) eqn:Ha; [|eauto].
  unfold plain_types in PT. rewrite !andb_true_iff in PT. destruct PT as [[Ta _] _].
  destruct (sound_amount l "Amount" Ha Ta (s_amount _ SO)) as [ra Ra]. rewrite Ra. eexists. reflexivity.
Qed.
(** The first arguments of a list, when the names are among them. *)
Lemma find_first k m name : has name k = true -> find_arg (text name) k = find_arg (text name) (k ++ m).
Proof. intros Q. symmetry. apply find_more, Q. Qed.

Lemma sound_first l k : sound l -> sound (firstn k l).
Proof. intros [A B C D E F G]. constructor; intros a FA; [apply A|apply B|apply C|apply D|apply E|apply F|apply G]; eapply find_firstn, FA. Qed.
(** Transfers all of whose arguments are expected. *)
Lemma full_shown x l : sound l -> SB.typed motes_type "amount" l = true -> zlen l <= known l -> 3 <= zlen l ->
  exists s, transfer_review x l = Some s.
Proof.
  intros SO Ta KN L3. unfold known in KN. change (S.len l) with (zlen l) in KN. rewrite Ta in KN.
  assert (NK : forall b : bool, 0 <= (if b then 1 else 0) <= 1) by (intros []; lia).
  assert (AM : exists r, want (only (fun t => match t with Prim 8 => true | _ => false end) amount_view) "Amount" "amount" l = Some r).
  { unfold SB.typed in Ta. unfold want, only. destruct (find_arg (text "amount") l) as [a|] eqn:FA; [|discriminate].
    change (motes_type (a_ty a)) with (match a_ty a with Prim 8 => true | _ => false end) in Ta. rewrite Ta.
    destruct (amount_view (a_ty a) (a_val a)) eqn:E; [eauto|]. exfalso. apply (s_amount _ SO a FA); [|exact E].
    destruct (a_ty a); try discriminate Ta. repeat (match goal with p : positive |- _ => destruct p | z : Z |- _ => destruct z end; try discriminate Ta). reflexivity. }
  destruct AM as [ra Ra]. unfold transfer_review. change (S.len l) with (zlen l).
  destruct (SB.typed is_id_type "id" l) eqn:Ti, (SB.typed is_account_type "target" l) eqn:Tt;
    destruct (zlen l =? 4) eqn:E4; cbn [andb] in KN; pose proof (NK (SB.typed is_account_type "source" l)) as NS; try (exfalso; lia).
  - destruct (SB.typed is_account_type "source" l) eqn:Ts; [|lia].
    destruct (sound_arg _ _ _ "ID" Ti (s_id _ SO)) as [ri Ri]. destruct (sound_arg _ _ _ "Target" Tt (s_target _ SO)) as [rt Rt].
    destruct (sound_arg _ _ _ "From" Ts (s_source _ SO)) as [rs Rs].
    replace (zlen l =? 3) with false by lia. unfold account_arg. rewrite Ra, Ri, Rt, Rs. eexists. reflexivity.
  - destruct (sound_arg _ _ _ "ID" Ti (s_id _ SO)) as [ri Ri]. destruct (sound_arg _ _ _ "Target" Tt (s_target _ SO)) as [rt Rt].
    replace (zlen l =? 3) with true by lia. unfold account_arg. rewrite Ra, Ri, Rt. eexists. reflexivity.
Qed.
Lemma early_shown o l : sound l -> plain_types l = true -> early o l -> (o = ORedelegate -> typed_if_present is_key_type "new_validator" l = true) ->
  let k := firstn (Z.to_nat (op_args o)) l in
  zlen k = op_args o /\ plain_types k = true /\ has_delegation_args k = true /\ exists r, delegation_review o k = Some r.
Proof.
  intros SO PT [HD HR] HN k. cbv zeta in HD, HR. fold k in HD, HR. set (m := skipn (Z.to_nat (op_args o)) l).
  assert (KM : l = k ++ m) by (symmetry; apply firstn_skipn).
  pose proof HD as HD'. unfold has_delegation_args in HD'. rewrite !andb_true_iff in HD'. destruct HD' as [[Ka Kd] Kv].
  assert (LK : zlen k = op_args o).
  { assert (zlen k <= op_args o) by (unfold k, zlen; rewrite firstn_length; destruct o; cbn; lia).
    pose proof (several (["amount"; "delegator"; "validator"])%string k ltac:(distinct) ltac:(repeat constructor; auto)) as Q. change (zlen (["amount"; "delegator"; "validator"])%string) with 3 in Q.
    destruct o; cbn [op_args] in *; try lia.
    pose proof (several (["amount"; "delegator"; "validator"; "new_validator"])%string k ltac:(distinct) ltac:(repeat constructor; auto)) as Q'.
    change (zlen (["amount"; "delegator"; "validator"; "new_validator"])%string) with 4 in Q'. lia. }
  assert (PK : plain_types k = true).
  { unfold plain_types, typed_if_present in *. rewrite (find_first k m _ Ka), (find_first k m _ Kd), (find_first k m _ Kv), <- KM. exact PT. }
  split; [exact LK|]. split; [exact PK|]. split; [exact HD|]. apply delegation_shown; auto.
  - apply sound_first, SO.
  - intros ->. split; [auto|]. pose proof (HN eq_refl) as T. unfold typed_if_present in *. rewrite (find_first k m _ (HR eq_refl)), <- KM. exact T.
Qed.
(** Code that names an operation has its arguments. *)
Definition known_auction (i : session) : Prop :=
  match i with
  | Module _ l => has "auction" l = true -> auction_op l <> None /\ plain_types l = true /\ has_delegation_args l = true
  | _ => True
  end.
(** The arguments of operations come first. *)
Definition settled (i : session) : Prop :=
  match i with
  | Stored _ ep l => plain_types l = true -> forall o, stored_op ep l = Some o -> early o l
  | Module _ l => forall o, auction_op l = Some o -> early o l
  | SD.Transfer _ => True
  end.
(** Code of which the hash could always be shown. *)
Definition tight (i : session) : Prop := match i with Module w l => plain_types l = true -> S.len w <= 32 | _ => True end.
Lemma coverage H x i :
  fit i -> known_auction i -> session_refusal i = None -> sound (args_of i) -> settled i -> tight i ->
  (good_session i /\ exists s, session_review H x i = Some s) \/ exists s, bare x i s.
Proof.
  intros FI PC R SO GA SC. destruct i as [w l|t ep l|l]; cbn [args_of session_refusal settled tight known_auction session_review] in *.
  - destruct (auction_refusal l) as [c|]; [discriminate|]. destruct (typed_if_present is_key_type "new_validator" l) eqn:TN; [|discriminate].
    destruct (has "auction" l) eqn:HA.
    { destruct (PC eq_refl) as (AO & PT & _). rewrite PT. destruct (auction_op l) as [op|] eqn:OP; [|contradiction].
      destruct (early_shown op l SO PT (GA op eq_refl) ltac:(auto)) as (_ & _ & _ & r & Rr).
      left. split; [split; [apply FI|exact (SC PT)]|]. cbn [negb]. rewrite Rr. eexists. reflexivity. }
    destruct (plain_types l) eqn:PT.
    + left. split; [split; [apply FI|exact (SC eq_refl)]|]. cbn [negb]. destruct (generic_shown l SO PT) as [r Rr]. rewrite Rr. eexists. reflexivity.
    + right. eexists. apply b_code; auto. split; [discriminate|exact TN].
  - assert (HN : ep = text "redelegate" -> has "new_validator" l = true /\ typed_if_present is_key_type "new_validator" l = true).
    { intros Q. destruct (list_eq_dec Z.eq_dec ep (text "redelegate")); [|contradiction]. unfold heir in R. unfold has, typed_if_present.
      destruct (find_arg (text "new_validator") l) as [a|]; [|discriminate]. destruct (is_key_type (a_ty a)); [auto|discriminate]. }
    destruct (plain_types l) eqn:PT.
    2: { right. eexists. apply b_call; [exact PT|]. intros Q. destruct (HN Q). split; auto. }
    cbn [negb]. destruct (stored_op ep l) as [o|] eqn:OP.
    + right. assert (EP : operation_of ep = Some o) by (unfold stored_op in OP; destruct (has_delegation_args l); [exact OP|discriminate]).
      destruct (early_shown o l SO PT (GA eq_refl o eq_refl)) as (LK & PK & HD & r & Rr).
      { intros ->. apply HN. unfold operation_of in EP. repeat match type of EP with context [if ?b then _ else _] => destruct b end; congruence. }
      pose proof (eq_sym (firstn_skipn (Z.to_nat (op_args o)) l)) as KM. set (k := firstn (Z.to_nat (op_args o)) l) in *. set (m := skipn (Z.to_nat (op_args o)) l) in *. clearbody k m. rewrite KM. eexists. eapply b_more; [exact PK| |exact LK|exact Rr]. unfold stored_op. rewrite HD. exact EP.
    + left. split; [split; [apply FI|apply FI]|].
      assert (X : (if list_eq_dec Z.eq_dec ep (text "redelegate") then true else false)
             && negb (has "new_validator" l && typed_if_present is_key_type "new_validator" l) = false).
      { destruct (list_eq_dec Z.eq_dec ep (text "redelegate")) as [Q|]; [|reflexivity]. destruct (HN Q) as [-> ->]. reflexivity. }
      rewrite X. destruct (generic_shown l SO PT) as [r Rr]. rewrite Rr. eexists. reflexivity.
  - destruct (find_arg (text "amount") l) as [a|] eqn:FA; [|discriminate]. destruct (motes_type (a_ty a)) eqn:MT; [|discriminate].
    assert (Ta : SB.typed motes_type "amount" l = true) by (unfold SB.typed; rewrite FA; exact MT).
    change (S.len l) with (zlen l) in *.
    destruct (Z_lt_le_dec (known l) (zlen l)) as [KL|KL]; [right; eexists; apply b_transfer; split; auto|].
    left. split; [apply FI|]. apply full_shown; auto.
    destruct (Z_lt_le_dec (zlen l) 3) as [L3|]; [exfalso|assumption].
    assert (EQ : zlen l = known l) by (apply (known_at_most l Ta KL)).
    rewrite <- EQ, Z.eqb_refl in R. replace (zlen l <? 3) with true in R by lia. discriminate R.
Qed.
Lemma tight_verdict pf x h p i n r :
  hash32 (p_hash pf) -> good_header h -> S.len (p_amount p) <= 64 -> fit i -> known_auction i -> SR.trailing x i n r ->
  h_bodyhash h = p_hash pf (enc_payment p ++ enc_session i) -> expert_ok x (p_time pf) h ->
  let data := enc_header h ++ p_hash pf (enc_header h) ++ enc_payment p ++ enc_session i ++ r in
  bytes data -> S.len data < 65535 ->
  session_refusal i = None -> sound (args_of i) -> settled i -> tight i -> exists lines, reviews pf x (0 :: data) lines.
Proof.
  intros Hh G P FI PC T B X data By L R SO GA SC.
  destruct (coverage (p_hash pf) x i FI PC R SO GA SC) as [[GS [s S0]]|[s S0]]; eexists.
  - eapply shown_sealed; eauto.
  - eapply bare_review; eauto.
Qed.
