(** Sessions whose arguments are not the expected ones: what is parsed and
    shown of them. *)
From Verif Require Import Base Zxlib Crypto Utils RuntimeArg Deploy DeployUI BaseFacts Spec SpecText SpecDeploy SpecRaw SpecBlind Exec ArgsFacts ReaderFacts TextFacts Shows DeployArgs SessionFacts DelegationFacts StoredFacts ModuleFacts ReviewFacts BlindReview Parser Demo RawShow.
Import S ST SD SB.

Lemma typed_ok_of ok name l : SB.typed ok name l = true -> typed_ok ok name l.
Proof. unfold SB.typed, typed_ok. destruct (find_arg (text name) l) as [a|]; [eauto | discriminate]. Qed.
Lemma heir_typed l : heir_ok true l -> typed_ok is_key_type "new_validator" l.
Proof. intros [A B]. apply has_typed; auto. Qed.

(** * Arguments of an unexpected type *)
Lemma count_ill l e o i red :
  wf e -> Forall arg_ok l -> at_ e o (enc_arg_list l) -> ill_typed l ->
  checkForDelegationItems i (zlen l) red e o = (Ret i, o).
Proof.
  intros W F A PT. unfold ill_typed, plain_types, typed_if_present in PT. unfold checkForDelegationItems.
  pose proof (fun f => COUNT_at e W l F o A "amount" _ _ f decides_amount) as S1.
  pose proof (fun f => COUNT_at e W l F o A "delegator" _ _ f decides_pubkey) as S2.
  pose proof (fun f => COUNT_at e W l F o A "validator" _ _ f decides_pubkey) as S3.
  destruct (find_arg (text "amount") l) as [a1|]; [destruct (is_amount_type (a_ty a1)); [|step (S1 0); reflexivity]|]; step (S1 0);
  (destruct (find_arg (text "delegator") l) as [a2|]; [destruct (is_key_type (a_ty a2)) eqn:K2; [|rewrite (bind_Ret _ _ _ _ _ _ (S2 _)); reflexivity]|]);
  rewrite (bind_Ret _ _ _ _ _ _ (S2 _));
  (destruct (find_arg (text "validator") l) as [a3|]; [destruct (is_key_type (a_ty a3)) eqn:K3; [|rewrite (bind_Ret _ _ _ _ _ _ (S3 _)); reflexivity]|]);
  discriminate PT.
Qed.
Lemma delegation_args_ill l e o i red ha :
  wf e -> Forall arg_ok l -> at_ e o (enc_arg_list l) -> ill_typed l ->
  (red = true -> typed_ok is_key_type "new_validator" l) ->
  parseDelegation_args i (zlen l) red ha e o
  = (let j := if dspecial i =? Generic then set_generic true i else i in
     (Ret (expert_fixed (expert e && ha) (dgeneric j) j), o)).
Proof.
  intros W F A PT T. unfold parseDelegation_args.
  assert (S1 : (if red then CHECK_RUNTIME_ARGTYPE (zlen l) (str "new_validator") is_pubkey else ret tt) e o = (Ret tt, o)).
  { destruct red; [apply (CHECK_ok e W l F o A _ _ _ decides_pubkey); auto | reflexivity]. }
  step S1. rewrite (step_try_ok _ _ _ _ _ _ (count_ill l e o i red W F A PT)), step_ret. cbv zeta. rewrite step_ask. unfold expert_fixed.
  destruct (expert e && ha); reflexivity.
Qed.

(** * Stored contracts, whatever the arguments *)
Lemma stored_tail_any t ep l it e o start :
  wf e -> Forall arg_ok l -> at_ e o (lv ep ++ enc_args l) ->
  check_entrypoint (init_item t) e o = (Ret (it, zlen l, o), o + zlen (lv ep) + 4) -> 0 <= start < o ->
  (r <- check_entrypoint (init_item t) ;;
   parseRuntimeArgs (snd (fst r)) ;;
   tl <- parseTotalLength (start + 65536 * hi16 e) ;;
   ret (set_total tl (fst (fst r)), snd r)) e o
  = (Ret (set_total (o + zlen (lv ep ++ enc_args l) - start + 1) it, o),
     o + zlen (lv ep ++ enc_args l)).
Proof.
  intros W F A CE SO. step CE. cbn [fst snd].
  pose proof (at_bound _ _ _ W A) as B. rewrite zlen_app in *.
  apply at_app in A; destruct A as [A1 A2].
  destruct (at_args _ _ _ W A2) as (RU & A3 & ZL). rewrite ZL in *.
  pose proof (zlen_nonneg (lv ep)). pose proof (zlen_nonneg (enc_arg_list l)).
  step (parseRuntimeArgs_at l e _ W (args_supported _ F) A3).
  step (total_at start e (o + zlen (lv ep) + 4 + zlen (enc_arg_list l)) 0 ltac:(lia) ltac:(lia) ltac:(lia)).
  cbv [ret]. apply pair_ret; [|lia]. f_equal. f_equal. lia.
Qed.
Lemma stored_parse_any t ep l it e o :
  wf e -> good_target t -> Forall arg_ok l ->
  at_ e o (enc_session (Stored t ep l)) ->
  check_entrypoint (init_item (ttype t)) e (o + 1 + zlen (tbody t)) = (Ret (it, zlen l, o + 1 + zlen (tbody t)), o + 1 + zlen (tbody t) + zlen (lv ep) + 4) ->
  parseDeployItem_session (ttype t) e (o + 1)
  = (Ret (set_total (zlen (enc_session (Stored t ep l))) it, o + 1 + zlen (tbody t)), o + zlen (enc_session (Stored t ep l))).
Proof.
  intros W GT F A CE. pose proof (at_bound _ _ _ W A) as B. cbn [enc_session] in *.
  rewrite enc_target_cons in *. cbn [app] in *. rewrite zlen_cons, zlen_app in *. apply at_cons in A; destruct A as [_ A].
  apply at_app in A; destruct A as [A1 A2].
  pose proof (zlen_nonneg (tbody t)). pose proof (zlen_nonneg (lv ep ++ enc_args l)).
  assert (TB : 0 < zlen (tbody t)).
  { unfold tbody, good_target in *. destruct t; cbn [enc_target tl]; rewrite ?zlen_app, ?zlen_lv; change (@S.len Z) with (@zlen Z) in GT;
      try (pose proof (zlen_nonneg (enc_ver ver))); try (pose proof (zlen_nonneg n)); lia. }
  pose proof (stored_tail_any (ttype t) ep l it e (o + 1 + zlen (tbody t)) (o + 1) W F A2 CE ltac:(lia)) as T.
  assert (E1 : o + 1 + zlen (tbody t) + zlen (lv ep ++ enc_args l) - (o + 1) + 1 = 1 + (zlen (tbody t) + zlen (lv ep ++ enc_args l))) by lia.
  rewrite E1 in T. replace (o + (1 + (zlen (tbody t) + zlen (lv ep ++ enc_args l)))) with (o + 1 + zlen (tbody t) + zlen (lv ep ++ enc_args l)) by lia.
  rewrite <- T. clear T E1 CE.
  unfold parseDeployItem_session, good_target in *. destruct t as [h|n|h v|n v]; cbn [ttype];
    cbv [ModuleBytes StoredVersionedContractByHash StoredContractByHash StoredVersionedContractByName StoredContractByName]; ground_eqb;
    unfold parseStoredContractByHash, parseStoredContractByName, off32, tbody in *; cbn [enc_target tl] in *;
    rewrite bind_assoc, step_get_off, bind_assoc, step_ask, step_ret;
    cbv [StoredVersionedContractByHash StoredVersionedContractByName init_item dtype]; ground_eqb; fold (init_item 1); fold (init_item 2); fold (init_item 3); fold (init_item 4).
  - change (S.len h) with (zlen h) in GT. rewrite step_advance by lia. rewrite step_ret. rewrite GT. reflexivity.
  - step (parse_item_at n e _ W A1). rewrite step_ret. reflexivity.
  - destruct GT as [GT GV]. change (S.len h) with (zlen h) in GT. rewrite zlen_app in *. apply at_app in A1; destruct A1 as [A1 A3].
    pose proof (zlen_nonneg (enc_ver v)). pose proof (zlen_nonneg (lv ep ++ enc_args l)).
    rewrite step_advance by lia. rewrite GT in *. rewrite bind_assoc. step (version_at v e _ W GV A3). rewrite step_ret. rewrite Z.add_assoc. reflexivity.
  - destruct GT as [GT GV]. rewrite zlen_app in *. apply at_app in A1; destruct A1 as [A1 A3].
    step (parse_item_at n e _ W A1). rewrite bind_assoc. step (version_at v e _ W GV A3). rewrite step_ret. rewrite Z.add_assoc. reflexivity.
Qed.
(** The entry point, and then the arguments. *)
Lemma entry_any t ep l e o j :
  wf e -> Forall arg_ok l -> good_name 99 ep -> at_ e o (lv ep ++ enc_args l) -> t <> ModuleBytes ->
  (forall A : at_ e (o + zlen (lv ep) + 4) (enc_arg_list l),
   parseDelegation_args (mkD t (special_of (operation_of ep)) false 0 0 0 (o + zlen (lv ep))) (zlen l) (is_redelegate (operation_of ep)) true e (o + zlen (lv ep) + 4)
   = (Ret j, o + zlen (lv ep) + 4)) ->
  check_entrypoint (init_item t) e o = (Ret (j, zlen l, o), o + zlen (lv ep) + 4).
Proof.
  intros W F [EL EN] A NM X. change (S.len ep) with (zlen ep) in EL.
  apply at_app in A; destruct A as [A1 A2].
  destruct (at_args _ _ _ W A2) as (RU & A3 & ZL). specialize (X A3).
  unfold check_entrypoint. rewrite step_get_off. step (copy_item_at 100 ep e o W A1 ltac:(lia)).
  rewrite step_get_off. step RU. unfold name_is. rewrite cstr_id by auto.
  destruct (special_names ep) as [-> ->].
  assert (Y : parseDelegation (set_special (special_of (operation_of ep)) (set_itemOffset (o + zlen (lv ep)) (init_item t))) (zlen l) (is_redelegate (operation_of ep)) e (o + zlen (lv ep) + 4)
              = (Ret j, o + zlen (lv ep) + 4)).
  { unfold parseDelegation. change (dtype (set_special (special_of (operation_of ep)) (set_itemOffset (o + zlen (lv ep)) (init_item t)))) with t.
    replace (t =? ModuleBytes) with false by lia. exact X. }
  step Y. reflexivity.
Qed.
Lemma redelegate_name ep : is_redelegate (operation_of ep) = true -> ep = text "redelegate".
Proof. unfold operation_of. leq; intros R; congruence || discriminate R. Qed.

Definition call_item (x : bool) (t : Z) (ep : list Z) (io tot : Z) : ditem :=
  let g := match operation_of ep with None => true | Some _ => false end in
  mkD t (special_of (operation_of ep)) g (if x then 2 + (if versioned t then 1 else 0) + (if g then 1 else 0) else 0) 0 tot io.

Lemma sessions_shown it : dspecial it = Delegate \/ dspecial it = UnDelegate \/ dspecial it = ReDelegate \/ dspecial it = Generic ->
  (dspecial it =? NativeTransfer) = false /\
  ((dspecial it =? Delegate) || (dspecial it =? UnDelegate) || (dspecial it =? ReDelegate) || (dspecial it =? Generic)) = true.
Proof. intros [->|[->|[->| ->]]]; split; reflexivity. Qed.
Lemma special_cases op : special_of op = Delegate \/ special_of op = UnDelegate \/ special_of op = ReDelegate \/ special_of op = Generic.
Proof. destruct op as [[]|]; auto. Qed.

Lemma call_session e o t ep l :
  wf e -> good_target t -> Forall arg_ok l -> good_name 99 ep -> at_ e o (enc_session (Stored t ep l)) ->
  ill_typed l -> (ep = text "redelegate" -> heir_ok true l) ->
  sess_ok e o (Stored t ep l) (title (Stored t ep l)) (if expert e then target_review true t ++ entry_line ep else [])
    (call_item (expert e) (ttype t) ep (o + 1 + zlen (tbody t) + zlen (lv ep)) (zlen (enc_session (Stored t ep l))), o + 1 + zlen (tbody t)).
Proof.
  intros W GT F EN A PT H.
  pose proof (at_bound _ _ _ W A) as B.
  assert (ST : stype (Stored t ep l) = ttype t) by (destruct t; reflexivity).
  assert (NM : ttype t <> ModuleBytes) by (destruct t; discriminate).
  set (tot := zlen (enc_session (Stored t ep l))) in *. set (it := call_item _ _ _ _ _). set (p := o + 1 + zlen (tbody t)) in *.
  pose proof A as A0. cbn [enc_session] in A0. rewrite enc_target_cons in A0. cbn [app] in A0.
  apply at_cons in A0. destruct A0 as [_ A0].
  pose proof A0 as A9. apply at_app in A9. destruct A9 as [_ A9].
  assert (CE : check_entrypoint (init_item (ttype t)) e p = (Ret (call_item (expert e) (ttype t) ep (p + zlen (lv ep)) 0, zlen l, p), p + zlen (lv ep) + 4)).
  { apply entry_any; auto. intros A3. rewrite delegation_args_ill; auto.
    - cbv zeta. apply pair_ret; [|reflexivity]. unfold call_item, expert_fixed. rewrite andb_true_r.
      destruct (operation_of ep) as [[]|]; destruct (expert e); reflexivity.
    - intros R. apply heir_typed, H, redelegate_name, R. }
  pose proof (stored_parse_any t ep l _ e o W GT F A CE) as PP.
  rewrite app_assoc in A0. apply at_app in A0. destruct A0 as [A1 A2].
  pose proof (at_bound _ _ _ W A1) as B1. pose proof (zlen_nonneg (tbody t ++ lv ep)).
  assert (NF : zlen (if expert e then target_review true t ++ entry_line ep else []) = UI_fixed_items it).
  { unfold it, call_item, entry_line. dcbn. destruct (expert e); [|reflexivity]. rewrite zlen_app, target_lines. cbn [andb]. destruct (operation_of ep) as [[]|]; reflexivity. }
  assert (NF' : 0 <= UI_fixed_items it <= 4).
  { unfold it, call_item. dcbn. destruct (expert e), (versioned (ttype t)), (operation_of ep); lia. }
  constructor; cbn [fst snd]; fold it.
  - rewrite ST. exact PP.
  - reflexivity.
  - lia.
  - reflexivity.
  - rewrite NF. change (UI_runtime_items it) with 0. lia.
  - lia.
  - intros h py Hp. unfold deploy_type_text. cbn [Deploy.payment Deploy.session]. rewrite Hp.
    unfold ill_typed in PT. unfold title. rewrite PT. unfold it, call_item.
    assert (TT : ttype t =? Deploy.Transfer = false) by (destruct t; reflexivity).
    destruct (operation_of ep) as [[]|]; dcbn; rewrite TT; reflexivity.
  - intros i ln0 Hi. unfold session_item.
    destruct (sessions_shown it (special_cases (operation_of ep))) as [-> ->].
    unfold displays, getItem_Delegation. rewrite step_advance by lia.
    pose proof (nth_cases _ _ _ Hi) as Li.
    replace (Z.of_nat i <? UI_fixed_items it) with true by (rewrite <- NF; unfold zlen; lia).
    destruct (expert e) eqn:X; [|destruct i; discriminate Hi].
    apply (fixed_items t ep it e (o + 1) p i ln0 W GT EN A1 eq_refl); auto. rewrite X.
    unfold entry_line in Hi, Li. destruct (operation_of ep); [|exact Hi]. rewrite app_nil_r in Hi, Li. rewrite nth_error_app1; auto.
Qed.

(** * Delegations with further arguments *)
Lemma find_more n l m : has n l = true -> find_arg (text n) (l ++ m) = find_arg (text n) l.
Proof. unfold has. destruct (find_arg (text n) l) as [a|] eqn:E; [|discriminate]. intros _. apply find_app, E. Qed.
Lemma more_session e o t ep l m op r :
  wf e -> good_target t -> Forall arg_ok (l ++ m) -> good_name 99 ep -> at_ e o (enc_session (Stored t ep (l ++ m))) ->
  plain_types l = true -> stored_op ep l = Some op -> zlen l = op_args op -> delegation_review op l = Some r ->
  sess_ok e o (Stored t ep (l ++ m)) (title (Stored t ep (l ++ m))) ((if expert e then target_review true t else []) ++ r)
    (stored_item (expert e) (ttype t) ep l (o + 1 + zlen (tbody t) + zlen (lv ep)) (zlen (enc_session (Stored t ep (l ++ m)))), o + 1 + zlen (tbody t)).
Proof.
  intros W GT F EN A PT SO ZL R.
  pose proof (at_bound _ _ _ W A) as B.
  assert (ST : stype (Stored t ep (l ++ m)) = ttype t) by (destruct t; reflexivity).
  assert (NM : ttype t <> ModuleBytes) by (destruct t; discriminate).
  assert (HD : has_delegation_args l = true /\ operation_of ep = Some op).
  { unfold stored_op in SO. destruct (has_delegation_args l); [auto|discriminate]. }
  destruct HD as [HD OE]. pose proof HD as HD'. unfold has_delegation_args in HD'.
  apply andb_true_iff in HD'. destruct HD' as [HD' H3]. apply andb_true_iff in HD'. destruct HD' as [H1 H2].
  assert (PT' : plain_types (l ++ m) = true).
  { unfold plain_types, typed_if_present in *. rewrite !find_more by auto. exact PT. }
  assert (HDm : has_delegation_args (l ++ m) = true).
  { unfold has_delegation_args, has in *. rewrite !find_more by auto. exact HD. }
  assert (SOm : stored_op ep (l ++ m) = Some op) by (unfold stored_op; rewrite HDm; exact OE).
  set (tot := zlen (enc_session (Stored t ep (l ++ m)))) in *. set (it := stored_item _ _ _ _ _ _). set (p := o + 1 + zlen (tbody t)) in *.
  pose proof A as A0. cbn [enc_session] in A0. rewrite enc_target_cons in A0. cbn [app] in A0.
  apply at_cons in A0. destruct A0 as [_ A0].
  pose proof A0 as A9. apply at_app in A9. destruct A9 as [_ A9].
  destruct (op_typed _ _ _ R) as (_ & _ & _ & TN).
  assert (CE : check_entrypoint (init_item (ttype t)) e p = (Ret (stored_item (expert e) (ttype t) ep l (p + zlen (lv ep)) 0, zlen (l ++ m), p), p + zlen (lv ep) + 4)).
  { apply entry_any; auto. intros A3. rewrite OE, delegation_args_op; auto.
    - unfold stored_item, stored_op. rewrite HD, OE. unfold expert_fixed. rewrite andb_true_r. dcbn. destruct op, (expert e), (versioned (ttype t)); reflexivity.
    - dcbn. destruct op; discriminate.
    - intros Q. assert (op = ORedelegate) as -> by (destruct op; [discriminate Q | discriminate Q | reflexivity]).
      destruct (TN eq_refl) as (a & E & K). exists a. split; [apply find_app, E | exact K]. }
  pose proof (stored_parse_any t ep (l ++ m) _ e o W GT F A CE) as PP.
  rewrite app_assoc in A0. apply at_app in A0. destruct A0 as [A1 A2].
  pose proof (at_bound _ _ _ W A1) as B1. pose proof (at_bound _ _ _ W A2) as B2.
  pose proof (zlen_nonneg (tbody t ++ lv ep)). pose proof (zlen_nonneg (enc_args (l ++ m))).
  assert (IT : it = mkD (ttype t) (special_of (Some op)) false (if expert e then 2 + (if versioned (ttype t) then 1 else 0) else 0) (op_args op) tot (p + zlen (lv ep))).
  { unfold it, stored_item. rewrite SO. reflexivity. }
  assert (NR : zlen r = UI_runtime_items it) by (rewrite IT; dcbn; apply (op_lines _ _ _ R)).
  assert (NR' : 3 <= UI_runtime_items it <= 4) by (rewrite IT; dcbn; destruct op; cbn; lia).
  set (fx := if expert e then target_review true t else []).
  assert (NF : zlen fx = UI_fixed_items it).
  { unfold fx. rewrite IT. dcbn. destruct (expert e); [|reflexivity]. rewrite target_lines. reflexivity. }
  assert (NF' : 0 <= UI_fixed_items it <= 3).
  { rewrite IT. dcbn. destruct (expert e), (versioned (ttype t)); lia. }
  constructor; cbn [fst snd]; fold it fx.
  - rewrite ST, PP. apply pair_ret; [|reflexivity]. f_equal. rewrite IT. unfold stored_item. rewrite SO. reflexivity.
  - rewrite IT. reflexivity.
  - lia.
  - lia.
  - rewrite zlen_app. lia.
  - rewrite zlen_app. lia.
  - intros h py Hp. unfold deploy_type_text. cbn [Deploy.payment Deploy.session]. rewrite Hp.
    unfold title. rewrite PT'. unfold type_text. rewrite SOm, IT.
    assert (TT : ttype t =? Deploy.Transfer = false) by (destruct t; reflexivity).
    destruct op; dcbn; rewrite TT; reflexivity.
  - intros i ln0 Hi. unfold session_item.
    assert (SP : dspecial it = special_of (Some op)) by (rewrite IT; reflexivity).
    destruct (sessions_shown it) as [-> ->]; [rewrite SP; apply special_cases|].
    unfold displays, getItem_Delegation. rewrite step_advance by lia.
    assert (IO : itemOffset it = o + 1 + zlen (tbody t ++ lv ep)) by (rewrite IT; dcbn; rewrite zlen_app; unfold p; lia).
    apply nth_app in Hi. destruct Hi as [[Li Hi]|[Li Hi]].
    + replace (Z.of_nat i <? UI_fixed_items it) with true by (rewrite <- NF; unfold zlen; lia).
      unfold fx in Hi, Li. destruct (expert e) eqn:X; [|destruct i; discriminate Hi].
      apply (fixed_items t ep it e (o + 1) p i ln0 W GT EN A1); auto; [rewrite IT; reflexivity|]. rewrite X. rewrite nth_error_app1; auto.
    + pose proof (nth_cases _ _ _ Hi) as Lj.
      assert (LF : Z.of_nat (List.length fx) = UI_fixed_items it) by exact NF.
      assert (LR : Z.of_nat (List.length r) = UI_runtime_items it) by exact NR.
      replace (Z.of_nat i <? UI_fixed_items it) with false by lia.
      rewrite step_set_off by lia.
      rewrite u8_small by lia. rewrite step_check by lia.
      replace (Z.of_nat i - UI_fixed_items it) with (Z.of_nat (i - List.length fx)) by lia.
      assert (DG : dgeneric it = false) by (rewrite IT; reflexivity). rewrite DG.
      assert (DT : dtype it =? ModuleBytes = false) by (rewrite IT; destruct t; reflexivity). rewrite DT.
      rewrite <- IO in A2. destruct (at_args _ _ _ W A2) as (RU & A3 & ZL'). step RU.
      assert (RT : UI_runtime_items it = zlen l) by (rewrite IT; dcbn; lia). rewrite RT.
      rewrite enc_arg_list_app in A3. apply at_app in A3. destruct A3 as [A3 _]. apply Forall_app in F. destruct F as [F _].
      apply (op_items op l r it e (itemOffset it + 4) _ ln0 W F A3 R SP Hi).
Qed.

(** * Code *)
Definition code_item (s tot : Z) : ditem := mkD 0 Generic true 0 0 tot (s - 4).
(** Without an argument called auction the cursor is behind the arguments. *)
Lemma module_plain l e s c rest :
  wf e -> wasm e = false -> Forall arg_ok l -> at_ e s (enc_arg_list l) ->
  at_ e (s + zlen (enc_arg_list l)) (le 4 c ++ rest) -> tail_ok c rest -> 4 <= s -> has "auction" l = false ->
  parseDelegation_module (init_item 0) (zlen l) e s = (Ret (mkD 0 Generic true 0 0 0 (s - 4), has "new_validator" l, false), s).
Proof.
  intros W NW F A AT TK S4 HA. pose proof (at_bound _ _ _ W A) as B.
  pose proof (zlen_nonneg (enc_arg_list l)) as NN.
  unfold parseDelegation_module. rewrite step_get_off.
  match goal with |- bind _ ?k _ _ = _ => destruct (search_try "new_validator" l e s k W F A) as (r & Hr & Er) end.
  etransitivity; [exact Hr|]. clear Hr. cbv zeta. rewrite Er. clear r Er.
  pose proof (getData_at (text "auction") l e s W F A) as G. change (str "auction") with (text "auction").
  assert (Lk : lookup (text "auction") l = None).
  { unfold has, find_arg in HA. destruct (lookup (text "auction") l) as [[]|]; [discriminate | reflexivity]. }
  rewrite Lk in G. rewrite (step_try_fail _ _ _ _ _ _ G).
  change (parser_no_data =? parser_no_data) with true. cbv iota.
  rewrite bind_assoc, step_ask, NW, step_ret.
  apply at_app in AT. destruct AT as [AT1 AT2]. rewrite le_length in AT2. destruct TK as [TC TE TT].
  step (readU32_at c e _ W AT1 ltac:(lia)). rewrite step_get_off.
  destruct (at_prefix e _ c rest ltac:(lia) AT2) as [AP LP].
  rewrite (step_at _ _ (firstn (Z.to_nat c) rest)) by (auto; lia).
  unfold require. replace (c <=? 100) with true by lia. rewrite step_ret.
  assert (HD : forall w, hd 0 w <> 1 -> hd 0 w <> 2 -> w <> [] -> list_eqb (firstn (Z.to_nat c) rest) w = false).
  { intros w N1 N2 NE. apply list_eqb_neq. intros <-.
    destruct (Z.to_nat c) as [|k]; [apply NE; reflexivity|]. destruct rest as [|b r]; [apply NE; reflexivity|].
    cbn [firstn hd] in *. destruct (TT b r eq_refl); contradiction. }
  rewrite !HD by discriminate. rewrite step_set_off by lia.
  cbv [ret]. apply pair_ret; [|reflexivity]. cbn [fst snd]. dcbn. rewrite u32_small by lia. reflexivity.
Qed.
Lemma code_parse l e s c rest :
  wf e -> wasm e = false -> Forall arg_ok l -> at_ e s (enc_arg_list l) ->
  at_ e (s + zlen (enc_arg_list l)) (le 4 c ++ rest) -> tail_ok c rest -> 4 <= s ->
  ill_typed l -> has "auction" l = false -> heir_ok false l ->
  parseDelegation (init_item 0) (zlen l) false e s = (Ret (code_item s 0), s).
Proof.
  intros W NW F A AT TK S4 PT HA [_ HN].
  unfold parseDelegation. change (dtype (init_item 0) =? ModuleBytes) with true. cbv iota.
  step (module_plain l e s c rest W NW F A AT TK S4 HA). cbn [fst snd]. rewrite delegation_args_ill; auto.
  - rewrite andb_false_r. reflexivity.
  - intros R. apply has_typed; auto.
Qed.
Lemma code_session e o w l c rest :
  wf e -> wasm e = false -> Forall arg_ok l ->
  at_ e o (enc_session (Module w l) ++ le 4 c ++ rest) -> tail_ok c rest ->
  ill_typed l -> has "auction" l = false -> heir_ok false l ->
  sess_ok e o (Module w l) (title (Module w l)) [] (code_item (o + 1 + (4 + zlen w) + 4) (zlen (enc_session (Module w l))), 0).
Proof.
  intros W NW F A TK PT HA HN. apply at_app in A. destruct A as [A AT].
  pose proof (at_bound _ _ _ W A) as B. set (tot := zlen (enc_session (Module w l))) in *.
  cbn [enc_session] in *. apply at_cons in A. destruct A as [_ A]. apply at_app in A. destruct A as [A1 A2].
  destruct (at_args _ _ _ W A2) as (RU & A3 & ZL).
  assert (TOT : tot = 1 + (4 + zlen w + (4 + zlen (enc_arg_list l)))) by (unfold tot; rewrite zlen_cons, zlen_app, zlen_lv, ZL; reflexivity).
  rewrite zlen_lv in *. pose proof (zlen_nonneg w). pose proof (zlen_nonneg (enc_arg_list l)).
  set (s := o + 1 + (4 + zlen w) + 4) in *.
  assert (AT' : at_ e (s + zlen (enc_arg_list l)) (le 4 c ++ rest)).
  { replace (s + zlen (enc_arg_list l)) with (o + tot) by lia. exact AT. }
  constructor; cbn [fst snd].
  - cbn [stype]. unfold parseDeployItem_session. change (0 =? ModuleBytes) with true. cbv iota.
    assert (X : parseModuleBytes_session (init_item 0) e (o + 1) = (Ret (code_item s tot), o + tot)).
    { unfold parseModuleBytes_session, off32. rewrite bind_assoc, step_get_off, bind_assoc, step_ask, step_ret.
      step (parse_item_at w e _ W A1). rewrite zlen_lv. step RU.
      step (code_parse l e s c rest W NW F A3 AT' TK ltac:(lia) PT HA HN).
      step (parseRuntimeArgs_at l e s W (args_supported _ F) A3).
      step (total_at (o + 1) e (s + zlen (enc_arg_list l)) 0 ltac:(lia) ltac:(lia) ltac:(lia)).
      cbv [ret]. apply pair_ret; [|lia]. unfold code_item. dcbn. f_equal; lia. }
    step X. reflexivity.
  - reflexivity.
  - reflexivity.
  - reflexivity.
  - reflexivity.
  - vm_compute; discriminate.
  - intros h p Hp. unfold deploy_type_text. cbn [Deploy.payment Deploy.session]. rewrite Hp.
    unfold title, type_text, auction_op. unfold has in HA. destruct (find_arg (text "auction") l); [discriminate|]. reflexivity.
  - intros i ln0 Hi. destruct i; discriminate Hi.
Qed.

(** * Native transfers *)
Lemma odd_args l e o :
  wf e -> Forall arg_ok l -> at_ e o (enc_arg_list l) -> odd_transfer l ->
  exists k, checkNativeTransferArgs (zlen l) e o = (Ret k, o) /\ 0 <= k < zlen l.
Proof.
  intros W F A [Ta KN]. change (S.len l) with (zlen l) in KN. pose proof (typed_ok_of _ _ _ Ta) as TA.
  unfold checkNativeTransferArgs. step (CHECK_ok e W l F o A _ _ _ decides_u512 TA).
  step (COUNT_ok e W l F o A _ _ _ 0 decides_u512 TA). change (u16 (0 + 1)) with 1.
  unfold known in KN. change (S.len l) with (zlen l) in KN. rewrite Ta in KN. unfold SB.typed in KN.
  pose proof (fun f => COUNT_at e W l F o A "id" _ _ f decides_id) as S1.
  pose proof (fun f => COUNT_at e W l F o A "target" _ _ f decides_account) as S2.
  pose proof (fun f => COUNT_at e W l F o A "source" _ _ f decides_account) as S3.
  assert (Pos : 0 < zlen l).
  { destruct l; [|rewrite zlen_cons; pose proof (zlen_nonneg l); lia]. unfold SB.typed in Ta. discriminate Ta. }
  assert (Z0 : exists k, (Ret 0, o) = (Ret k, o) /\ 0 <= k < zlen l) by (exists 0; split; [reflexivity|lia]).
  destruct (find_arg (text "id") l) as [a1|]; [destruct (is_id_type (a_ty a1)); [|rewrite (bind_Ret _ _ _ _ _ _ (S1 _)); exact Z0]|];
  rewrite (bind_Ret _ _ _ _ _ _ (S1 _));
  (destruct (find_arg (text "target") l) as [a2|]; [destruct (is_account_type (a_ty a2)); [|rewrite (bind_Ret _ _ _ _ _ _ (S2 _)); exact Z0]|]);
  rewrite (bind_Ret _ _ _ _ _ _ (S2 _));
  (destruct (zlen l =? 4) eqn:E4; cbn [andb] in KN; [|eexists; split; [reflexivity|]; unfold u16; cbn; lia]);
  (destruct (find_arg (text "source") l) as [a3|]; [destruct (is_account_type (a_ty a3)); [|rewrite (bind_Ret _ _ _ _ _ _ (S3 _)); exact Z0]|]);
  rewrite (bind_Ret _ _ _ _ _ _ (S3 _)); (eexists; split; [reflexivity|]; unfold u16; cbn; lia).
Qed.

Lemma first_hash l e o it : wf e -> Forall arg_ok l -> l <> [] -> at_ e o (enc_args l) ->
  dgeneric it = true -> UI_runtime_items it = 1 ->
  displays (args_hash o 1 (str "native-transfer")) e (o + 4) (ln "Args hash" (ArgsHash (text "native-transfer") (first_arg l))).
Proof.
  intros W F NE A _ _. destruct l as [|a l]; [contradiction|]. clear NE.
  pose proof (at_bound _ _ _ W A) as B. set (bs := first_arg (a :: l)).
  assert (E : enc_args (a :: l) = bs ++ enc_arg_list l).
  { unfold bs, first_arg, enc_args. cbn [firstn]. rewrite (enc_arg_list_app [a] l : enc_arg_list (a :: l) = _), <- app_assoc. reflexivity. }
  rewrite E in A, B. apply at_app in A. destruct A as [A _].
  assert (A2 : at_ e (o + 4) (enc_arg_list [a])).
  { unfold bs, first_arg in A. apply at_app in A. rewrite le_length in A. apply A. }
  assert (ZL : zlen bs = 4 + zlen (enc_arg_list [a])) by (unfold bs, first_arg; rewrite zlen_app, le_length; reflexivity).
  rewrite zlen_app in B. pose proof (zlen_nonneg (enc_arg_list [a])). pose proof (zlen_nonneg (enc_arg_list l)).
  assert (Sp : Forall (fun a => supported (a_ty a) = true) [a]).
  { constructor; [|constructor]. inversion F as [|? ? Ha]; apply Ha. }
  unfold displays. eexists _, _. split.
  - unfold args_hash. change 1 with (zlen [a]). step (parseRuntimeArgs_at [a] e (o + 4) W Sp A2).
    rewrite step_get_off, step_set_off by lia.
    rewrite u32_small by lia.
    replace (o + 4 + zlen (enc_arg_list [a]) - o) with (zlen bs) by lia.
    unfold showRuntimeArgsHash. rewrite !bind_assoc, step_get_off, bind_assoc, (step_at _ _ bs) by auto.
    rewrite bind_assoc, step_ask, bind_assoc, step_check by reflexivity.
    pose proof (wf_hash e W bs) as HL. pose proof (wf_hashb e W bs) as HB.
    unfold encode_hex. rewrite HL. unfold BLAKE2B_256_SIZE. cbn [Z.ltb Z.mul Pos.mul Z.compare Pos.compare Pos.compare_cont orb].
    assert (EL : encode_loop (hash e bs) (bytes_to_nibbles (hash e bs)) 0 0 = Ret (cep57 (hash e bs) (hash e bs))).
    { pose proof (encode_ok (fun _ => hash e bs) (hash e bs) ltac:(intros; exact HL) HB ltac:(lia)) as X.
      unfold encode in X. rewrite HL in X. exact X. }
    rewrite EL. rewrite step_ret, step_set_off by lia. reflexivity.
  - split; [reflexivity|]. cbn [snd ln renders ival]. f_equal. apply cstr_id.
    rewrite !in_app_iff. intros [X|[X|X]]; [vm_compute in X; intuition discriminate | cbn in X; lia | eapply cep57_no_nul; [|exact X]; apply (wf_hashb e W)].
Qed.

Lemma odd_session e o l :
  wf e -> Forall arg_ok l -> at_ e o (enc_session (SD.Transfer l)) -> odd_transfer l ->
  sess_ok e o (SD.Transfer l) (title (SD.Transfer l)) [ln "Args hash" (ArgsHash (text "native-transfer") (first_arg l))]
    (mkD 5 NativeTransfer true 0 1 (zlen (enc_session (SD.Transfer l))) 0, 0).
Proof.
  intros W F A OT.
  pose proof (at_bound _ _ _ W A) as B. set (tot := zlen (enc_session (SD.Transfer l))) in *. cbn [enc_session] in *.
  apply at_cons in A. destruct A as [A0 A].
  destruct (at_args _ _ _ W A) as (RU & A1 & ZL). pose proof (zlen_nonneg (enc_arg_list l)) as NN.
  assert (ZS : tot = 5 + zlen (enc_arg_list l)) by (unfold tot; rewrite zlen_cons; lia).
  destruct (odd_args l e _ W F A1 OT) as (k & CK & KB).
  assert (NE : l <> []) by (intros ->; cbn in KB; lia).
  set (it := mkD 5 NativeTransfer true 0 1 tot 0).
  constructor; cbn [fst snd stype].
  - unfold parseDeployItem_session. cbv [ModuleBytes StoredVersionedContractByHash StoredContractByHash StoredVersionedContractByName StoredContractByName Deploy.Transfer].
    cbn [Z.eqb Pos.eqb orb].
    assert (X : parseTransfer (init_item 5) e (o + 1) = (Ret it, o + tot)).
    { unfold parseTransfer. unfold off32. rewrite bind_assoc, step_get_off, bind_assoc, step_ask, step_ret.
      step RU.
      assert (ZLL : zlen l <= zlen (enc_arg_list l)).
      { clear. induction l as [|a l IH]; [unfold zlen; cbn; lia|]. rewrite enc_arg_list_cons, zlen_app, zlen_cons.
        unfold enc_arg at 1. rewrite zlen_app, zlen_lv. pose proof (zlen_nonneg (a_name a)). pose proof (zlen_nonneg (lv (a_val a) ++ enc_type (a_ty a))). lia. }
      assert (Y : parseNativeTransfer (init_item 5) (zlen l) e (o + 1 + 4) = (Ret (mkD 5 255 true 0 1 0 0), o + 1 + 4)).
      { unfold parseNativeTransfer. step CK. cbv zeta. rewrite u32_small by lia.
        replace (zlen l - k =? 0) with false by lia. reflexivity. }
      step Y. step (parseRuntimeArgs_at l e _ W (args_supported _ F) A1).
      step (total_at (o + 1) e (o + 1 + 4 + zlen (enc_arg_list l)) 0 ltac:(lia) ltac:(lia) ltac:(lia)).
      cbv [ret]. apply pair_ret; [|lia]. unfold it. dcbn. f_equal. lia. }
    step X. reflexivity.
  - reflexivity.
  - reflexivity.
  - vm_compute; discriminate.
  - reflexivity.
  - vm_compute; discriminate.
  - intros h p Hp. unfold deploy_type_text; cbn. rewrite Hp. reflexivity.
  - intros i ln0 Hi. nth_split Hi. unfold session_item. cbn [dspecial it]. change (NativeTransfer =? NativeTransfer) with true. cbn iota.
    unfold displays, getItem_NativeTransfer. rewrite step_advance by lia. rewrite step_get_off. step RU.
    cbn [UI_runtime_items UI_fixed_items dgeneric it]. rewrite step_check by lia. change (u8 (Z.of_nat 0 - 0)) with 0.
    rewrite step_check by reflexivity. change (0 =? 0) with true. cbv iota.
    apply (first_hash l e (o + 1) it W F NE A); reflexivity.
Qed.

(** * Reviews *)
Lemma fit_args i : fit i -> Forall arg_ok (args_of i).
Proof. intros [F _]. apply good_arg_ok, F. Qed.
Lemma bare_sess d n r x s :
  fit (d_session d) -> bare x (d_session d) s ->
  exists rr, forall e, frame_at e d n r -> expert e = x -> sess_ok e (hlen d + 32 + plen d) (d_session d) (title (d_session d)) s rr.
Proof.
  intros FI B. set (o := hlen d + 32 + plen d) in *.
  assert (PC : forall e, frame_at e d n r -> wf e /\ wasm e = false /\ at_ e o (enc_session (d_session d) ++ r)
               /\ forall w l, d_session d = Module w l -> exists post, r = le 4 n ++ post /\ tail_ok n post).
  { intros e D. pose proof (frame_pieces _ _ _ _ D) as (_ & _ & _ & _ & A). split; [exact (fa_wf _ _ _ _ D)|].
    split; [exact (fa_nw _ _ _ _ D)|]. split; [exact A|]. exact (fo_module _ _ _ _ (fa_fol _ _ _ _ D)). }
  pose proof (fit_args _ FI) as GA. destruct FI as [_ FI]. clearbody o.
  destruct B as [t ep l PT H|w l PT HA HN|l OT|t ep l m op q PT SO ZL R]; cbn [args_of] in GA;
    [destruct FI as [GT EN]| | |destruct FI as [GT EN]]; eexists; intros e D X; destruct (PC e D) as (W & NW & A & FM).
  - apply at_app in A. destruct A as [A _]. pose proof (call_session e o t ep l W GT GA EN A PT H) as Q. rewrite X in Q. exact Q.
  - destruct (FM w l eq_refl) as (post & Er & TK). rewrite Er in A. exact (code_session e o w l n post W NW GA A TK PT HA HN).
  - apply at_app in A. destruct A as [A _]. exact (odd_session e o l W GA A OT).
  - apply at_app in A. destruct A as [A _]. pose proof (more_session e o t ep l m op q W GT GA EN A PT SO ZL R) as Q. rewrite X in Q. exact Q.
Qed.
Lemma bare_review pf x h p i n r s :
  hash32 (p_hash pf) -> good_header h -> S.len (p_amount p) <= 64 -> fit i -> h_bodyhash h = p_hash pf (enc_payment p ++ enc_session i) ->
  SR.trailing x i n r ->
  let data := enc_header h ++ p_hash pf (enc_header h) ++ enc_payment p ++ enc_session i ++ r in
  bytes data -> zlen data < 65535 -> bare x i s -> expert_ok x (p_time pf) h ->
  reviews pf x (0 :: data) (entitled x (SR.sealed (p_hash pf) h p i) (title i) n s).
Proof.
  intros Hh G P S0 B T data By L R X.
  assert (E : data = enc_signed (SR.sealed (p_hash pf) h p i) ++ r).
  { unfold data, enc_signed, SR.sealed, enc_body. cbn [d_header d_hash d_payment d_session]. rewrite <- !app_assoc. reflexivity. }
  rewrite E in *. destruct (bare_sess (SR.sealed (p_hash pf) h p i) n r x s) as (rr & SS); auto.
  eapply any_review; eauto.
  - constructor; cbn [SR.sealed d_header d_hash d_payment d_session]; auto. apply Hh.
  - apply trailing_follows, T.
Qed.

(** * Reviews that name what is called *)
Lemma some_inj {A} (a b : A) : Some a = Some b -> b = a.
Proof. congruence. Qed.
Lemma some_app {A} (a b s : list A) : Some (a ++ b) = Some s -> s = a ++ b.
Proof. congruence. Qed.
Lemma generic_hashed l q : generic_args_review l = Some q -> In (ln "Args hash" (ArgsHash (text "execution") (enc_args l))) q.
Proof.
  unfold generic_args_review. destruct (has "amount" l).
  - cbn [all]. destruct (want _ _ _ _) as [a|]; [|discriminate]. intros Q. apply some_inj in Q. subst q. right. left. reflexivity.
  - intros Q. apply some_inj in Q. subst q. left. reflexivity.
Qed.
Lemma names_shown H x i s : session_review H x i = Some s -> names H x i s.
Proof.
  unfold session_review, names. destruct i as [w l|t ep l|l]; [| |auto].
  - destruct (plain_types l); [cbn [negb]|discriminate]. unfold app2. destruct (has "auction" l) eqn:HA.
    + destruct (auction_op l) as [o|] eqn:AO; [|discriminate]. destruct (delegation_review _ _) as [q|]; [|discriminate].
      intros E. apply some_app in E. subst s. split; [|discriminate]. intros [->|Q]; [|discriminate Q]. intros y Iy. apply in_app_iff. auto.
    + destruct (typed_if_present is_key_type "new_validator" l); [cbn [negb]|discriminate].
      destruct (generic_args_review l) as [q|] eqn:GQ; [|discriminate]. intros E. apply some_app in E. subst s.
      split; [intros _ y Iy; apply in_app_iff; auto|]. intros _. apply in_app_iff. right. apply generic_hashed, GQ.
  - destruct (plain_types l); [cbn [negb]|discriminate]. unfold app2. destruct (stored_op ep l) as [o|] eqn:SO.
    + destruct (S.len l =? op_args o); [|discriminate]. destruct (delegation_review _ _) as [q|]; [|discriminate].
      intros E. apply some_app in E. subst s. split; [|discriminate]. intros [->|Q]; [|discriminate Q]. intros y Iy. apply in_app_iff. auto.
    + match goal with |- (if ?b then _ else _) = _ -> _ => destruct b; [discriminate|] end.
      destruct (generic_args_review l) as [q|] eqn:GQ; [|discriminate]. intros E. apply some_app in E. subst s.
      split; [intros _ y Iy; apply in_app_iff; left; apply in_app_iff; auto|]. intros _. apply in_app_iff. right. apply generic_hashed, GQ.
Qed.
Lemma named_review pf x h p i n r s :
  hash32 (p_hash pf) -> good_header h -> S.len (p_amount p) <= 64 -> good_session i -> h_bodyhash h = p_hash pf (enc_payment p ++ enc_session i) ->
  SR.trailing x i n r ->
  let data := enc_header h ++ p_hash pf (enc_header h) ++ enc_payment p ++ enc_session i ++ r in
  bytes data -> zlen data < 65535 ->
  session_review (p_hash pf) x i = Some s -> expert_ok x (p_time pf) h ->
  exists lines, reviews pf x (0 :: data) lines /\ names (p_hash pf) x i lines.
Proof.
  intros Hh G P S0 B T data By L R X. eexists. split; [exact (shown_sealed pf x h p i n r s Hh G P S0 B T By L R X)|].
  pose proof (names_shown _ _ _ _ R) as N. unfold names in *. destruct i as [w l|t ep l|l]; [| |exact I]; destruct N as [N1 N2]; split.
  - intros Q y Iy. apply (N1 Q) in Iy. unfold SR.around_n. rewrite !in_app_iff. auto.
  - intros Q. apply N2 in Q. unfold SR.around_n. rewrite !in_app_iff. auto.
  - intros Q y Iy. apply (N1 Q) in Iy. unfold SR.around_n. rewrite !in_app_iff. auto.
  - intros Q. apply N2 in Q. unfold SR.around_n. rewrite !in_app_iff. auto.
Qed.

(** * The same lines for different sessions *)
Lemma entitled_blank x H h p i tt n s :
  entitled x (SR.sealed H (over h (H (enc_payment p ++ enc_session i))) p i) tt n s
  = ln "Txn hash" (Hex (signed_hash H h p i)) :: blank x h p tt n s.
Proof. reflexivity. Qed.
Lemma signed_blank pf x h p i n r s :
  hash32 (p_hash pf) -> good_header h -> S.len (p_amount p) <= 64 -> fit i -> SR.trailing x i n r ->
  bytes (enc_header h) -> bytes (enc_payment p) -> bytes (enc_session i) -> bytes r ->
  zlen (enc_header h) + 32 + zlen (enc_payment p) + zlen (enc_session i) + zlen r < 65535 ->
  bare x i s -> expert_ok x (p_time pf) h ->
  reviews pf x (0 :: signed (p_hash pf) h p i r) (ln "Txn hash" (Hex (signed_hash (p_hash pf) h p i)) :: blank x h p (title i) n s).
Proof.
  intros Hh G P F T Bh Bp Bi Br L B X. rewrite <- entitled_blank. unfold signed.
  set (b := p_hash pf (enc_payment p ++ enc_session i)). destruct (Hh (enc_payment p ++ enc_session i)) as [Lb Bb]. fold b in Lb, Bb.
  assert (E : forall c, enc_header (over h c) = ([h_alg h] ++ h_key h ++ le 8 (h_time h) ++ le 8 (h_ttl h) ++ le 8 (h_gas h)) ++ c ++ (le 4 (S.len (h_deps h)) ++ List.concat (h_deps h) ++ lv (h_chain h))).
  { intros c. unfold enc_header, over. cbn [h_alg h_key h_time h_ttl h_gas h_bodyhash h_deps h_chain]. rewrite <- !app_assoc. reflexivity. }
  assert (E0 : enc_header h = enc_header (over h (h_bodyhash h))) by (destruct h; reflexivity).
  rewrite E0, E in Bh, L. rewrite !zlen_app in L. apply bytes_app in Bh. destruct Bh as [B1 Bh]. apply bytes_app in Bh. destruct Bh as [_ B2].
  pose proof (gh_bodyhash _ G) as LB. change (S.len (h_bodyhash h)) with (zlen (h_bodyhash h)) in LB.
  assert (BH : bytes (enc_header (over h b))) by (rewrite E; apply bytes_app; split; [exact B1|]; apply bytes_app; split; [exact Bb|exact B2]).
  assert (LH : zlen (enc_header (over h b)) = zlen (enc_header h)) by (rewrite E0, !E, !zlen_app, Lb, LB; reflexivity).
  destruct (Hh (enc_header (over h b))) as [L2 B3].
  apply bare_review; auto.
  - destruct G. constructor; cbn [over h_alg h_key h_time h_ttl h_gas h_bodyhash h_deps h_chain]; auto.
  - repeat (apply bytes_app; split; auto).
  - rewrite !zlen_app. rewrite LH, L2, E0, E, !zlen_app. lia.
Qed.
