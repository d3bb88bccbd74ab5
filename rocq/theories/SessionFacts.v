(** Sessions: parsing an encoded session and displaying its items. *)
From Verif Require Import Base Zxlib Crypto Utils RuntimeArg Deploy DeployUI BaseFacts Spec SpecText SpecDeploy Exec ArgsFacts ReaderFacts TextFacts Shows DeployArgs.
Import S ST SD.

(** The session branch of getItemDeploy. *)
Definition session_item (v : ditem) (ep idx : Z) : P item :=
  let sp := dspecial v in
  if sp =? NativeTransfer then getItem_NativeTransfer v idx
  else if (sp =? Delegate) || (sp =? UnDelegate) || (sp =? ReDelegate) || (sp =? Generic) then
    getItem_Delegation v ep idx
  else fail parser_unexpected_type.

Definition stype (s : session) : Z :=
  match s with
  | Module _ _ => 0
  | Stored (ByHash _) _ _ => 1 | Stored (ByName _) _ _ => 2
  | Stored (ByHashV _ _) _ _ => 3 | Stored (ByNameV _ _) _ _ => 4
  | SD.Transfer _ => 5
  end.

Ltac dcbn := cbv [init_item set_total set_special set_generic set_fixed add_runtime set_itemOffset dtype dspecial dgeneric UI_fixed_items UI_runtime_items totalLength itemOffset].

Record session_ok (e : env) (o : Z) (s : session) (lines : list line) (r : ditem * Z) : Prop := {
  so_parse : parseDeployItem_session (stype s) e (o + 1) = (Ret r, o + zlen (enc_session s));
  so_total : totalLength (fst r) = zlen (enc_session s);
  so_fixed : 0 <= UI_fixed_items (fst r);
  so_runtime : 0 <= UI_runtime_items (fst r);
  so_sum : UI_fixed_items (fst r) + UI_runtime_items (fst r) = zlen lines;
  so_few : zlen lines <= 8;
  so_type : forall h p, dspecial p = SystemPayment ->
              deploy_type_text (mkDeploy h p (fst r) (snd r)) = type_text s;
  so_items : forall i l, nth_error lines i = Some l ->
              displays (session_item (fst r) (snd r) (Z.of_nat i)) e o l }.

Lemma all_cons {A} (x : option A) l r : all (x :: l) = Some r ->
  exists a s, x = Some a /\ all l = Some s /\ r = a :: s.
Proof. cbn [all]. destruct x as [a|]; [|discriminate]. destruct (all l) as [s|]; [|discriminate]. intros X; inversion X; eauto. Qed.
Lemma all_nil {A} (r : list A) : all [] = Some r -> r = [].
Proof. cbn; intros X; inversion X; auto. Qed.
Ltac all_inv H :=
  repeat (apply all_cons in H; let a := fresh "ln" in let s := fresh "s" in let E := fresh "V" in
          destruct H as (a & s & E & H & ->)); apply all_nil in H; subst.

Lemma at_args e o l : wf e -> at_ e o (enc_args l) ->
  readU32 e o = (Ret (zlen l), o + 4) /\ at_ e (o + 4) (enc_arg_list l) /\
  zlen (enc_args l) = 4 + zlen (enc_arg_list l).
Proof.
  intros W A. pose proof (at_bound _ _ _ W A) as B.
  assert (L : zlen l <= zlen (enc_arg_list l)).
  { clear. induction l as [|a l IH]; [unfold zlen; cbn; lia|]. rewrite enc_arg_list_cons, zlen_app, zlen_cons.
    unfold enc_arg at 1. rewrite zlen_app, zlen_lv. pose proof (zlen_nonneg (a_name a)). pose proof (zlen_nonneg (lv (a_val a) ++ enc_type (a_ty a))). lia. }
  unfold enc_args in *. apply at_app in A. rewrite le_length in A. rewrite zlen_app, le_length in *.
  destruct A as [A1 A2]. pose proof (zlen_nonneg l). split; [|split; auto].
  apply readU32_at; auto. lia.
Qed.

Lemma args_supported l : Forall arg_ok l -> Forall (fun a => supported (a_ty a) = true) l.
Proof. apply Forall_impl. intros a Ha; apply Ha. Qed.

Lemma total_at start e o (h : Z) :
  start < o -> 0 <= start -> o < 65536 ->
  parseTotalLength (start + 65536 * hi16 e) e o = (Ret (o - start + 1), o).
Proof.
  intros. unfold parseTotalLength, off32. rewrite bind_assoc, step_get_off, bind_assoc, step_ask, step_ret.
  rewrite step_check by lia. rewrite u32_small by lia. cbv [ret]. pr.
Qed.

(** * Native transfers *)
Lemma transfer_args_ok l e o :
  wf e -> Forall arg_ok l -> at_ e o (enc_arg_list l) ->
  typed_ok (fun t => match t with Prim 8 => true | _ => false end) "amount" l ->
  typed_ok is_id_type "id" l -> typed_ok is_account_type "target" l ->
  (zlen l = 4 -> typed_ok is_account_type "source" l) ->
  checkNativeTransferArgs (zlen l) e o = (Ret (if zlen l =? 4 then 4 else 3), o).
Proof.
  intros W F A Ta Ti Tt Ts. unfold checkNativeTransferArgs.
  step (CHECK_ok e W l F o A _ _ _ decides_u512 Ta).
  step (COUNT_ok e W l F o A _ _ _ 0 decides_u512 Ta).
  step (COUNT_ok e W l F o A _ _ _ (u16 (0 + 1)) decides_id Ti).
  step (COUNT_ok e W l F o A _ _ _ (u16 (u16 (0 + 1) + 1)) decides_account Tt).
  destruct (zlen l =? 4) eqn:E; [|reflexivity].
  step (COUNT_ok e W l F o A _ _ _ (u16 (u16 (u16 (0 + 1) + 1) + 1)) decides_account (Ts ltac:(lia))).
  reflexivity.
Qed.

Lemma nth_cases {A} (l : list A) i x : nth_error l i = Some x -> (i < List.length l)%nat.
Proof. intros H; apply nth_error_Some; congruence. Qed.
(** enumerate the lines of a list of known shape *)
Ltac nth_split H := 
  match type of H with
  | nth_error (_ :: _) ?i = Some _ => destruct i as [|i]; [cbn [nth_error] in H; injection H as <- | cbn [nth_error] in H; nth_split H]
  | nth_error [] ?i = Some _ => destruct i; discriminate H
  end.

(** decide the comparisons between constants *)
Ltac ground_eqb :=
  repeat match goal with
         | |- context [Z.eqb ?a ?b] =>
             let c := eval vm_compute in (Z.eqb a b) in
             (match c with true => idtac | false => idtac end);
             change (Z.eqb a b) with c; cbv iota; cbn [andb orb negb]
         end.

Lemma transfer_lines x l lines :
  transfer_review x l = Some lines -> zlen lines = if x then zlen l else 2.
Proof.
  unfold transfer_review. change (S.len l) with (zlen l). intros R.
  destruct (zlen l =? 3) eqn:E3; [|destruct (zlen l =? 4) eqn:E4; [|discriminate]];
    (destruct (all _) as [r|] eqn:E in R; [|discriminate]; all_inv E; inversion R; subst;
     destruct x; unfold zlen at 1; cbn; lia).
Qed.

Lemma transfer_session e o l lines :
  wf e -> Forall arg_ok l -> at_ e o (enc_session (SD.Transfer l)) ->
  transfer_review (expert e) l = Some lines ->
  session_ok e o (SD.Transfer l) lines
    (mkD 5 NativeTransfer false 0 (if expert e then zlen l else 2) (zlen (enc_session (SD.Transfer l))) 0, 0).
Proof.
  intros W F A R.
  pose proof (at_bound _ _ _ W A) as B. cbn [enc_session] in *. rewrite zlen_cons in B.
  apply at_cons in A. destruct A as [A0 A].
  destruct (at_args _ _ _ W A) as (RU & A1 & ZL). pose proof (zlen_nonneg (enc_arg_list l)) as NN.
  pose proof (zlen_nonneg l) as NL.
  assert (ZS : zlen (enc_session (SD.Transfer l)) = 5 + zlen (enc_arg_list l))
    by (cbn [enc_session]; rewrite zlen_cons; lia).
  (* what the review says about the arguments *)
  assert (K : (zlen l = 3 \/ zlen l = 4) /\
    typed_ok (fun t => match t with Prim 8 => true | _ => false end) "amount" l /\
    typed_ok is_id_type "id" l /\ typed_ok is_account_type "target" l /\
    (zlen l = 4 -> typed_ok is_account_type "source" l)).
  { unfold transfer_review in R. change (S.len l) with (zlen l) in R. unfold account_arg in R.
    destruct (zlen l =? 3) eqn:E3.
    - destruct (all _) as [r|] eqn:E in R; [|discriminate]. all_inv E.
      repeat split; try (eapply want_typed; eassumption); lia.
    - destruct (zlen l =? 4) eqn:E4; [|discriminate].
      destruct (all _) as [r|] eqn:E in R; [|discriminate]. all_inv E.
      repeat split; try (eapply want_typed; eassumption); try lia. intros _; eapply want_typed; eassumption. }
  destruct K as (NL34 & Ta & Ti & Tt & Ts).
  pose proof (transfer_lines _ _ _ R) as NLines.
  set (it := mkD 5 NativeTransfer false 0 (if expert e then zlen l else 2) (zlen (enc_session (SD.Transfer l))) 0).
  change (session_ok e o (SD.Transfer l) lines (it, 0)). constructor; cbn [fst snd stype].
  - unfold parseDeployItem_session. cbv [ModuleBytes StoredVersionedContractByHash StoredContractByHash StoredVersionedContractByName StoredContractByName Deploy.Transfer].
    cbn [Z.eqb Pos.eqb orb].
    assert (X : parseTransfer (init_item 5) e (o + 1) = (Ret it, o + zlen (enc_session (SD.Transfer l)))).
    { unfold parseTransfer. unfold off32. rewrite bind_assoc, step_get_off, bind_assoc, step_ask, step_ret.
      step RU. rewrite bind_assoc || idtac.
      assert (Y : parseNativeTransfer (init_item 5) (zlen l) e (o + 1 + 4)
                  = (Ret (mkD 5 255 false 0 (if expert e then zlen l else 2) 0 0), o + 1 + 4)).
      { unfold parseNativeTransfer. step (transfer_args_ok l e _ W F A1 Ta Ti Tt Ts).
        assert (C : zlen l = if zlen l =? 4 then 4 else 3) by (destruct (zlen l =? 4) eqn:E; lia).
        rewrite <- C. replace (zlen l - zlen l) with 0 by lia. change (u32 0 =? 0) with true.
        replace ((zlen l =? 3) || (zlen l =? 4)) with true by lia. cbn [andb].
        rewrite step_ask. cbv [ret]. f_equal. f_equal. unfold set_generic, add_runtime, init_item; cbn.
        f_equal. destruct (expert e); apply u32_small; lia. }
      step Y. step (parseRuntimeArgs_at l e _ W (args_supported _ F) A1).
      step (total_at (o + 1) e (o + 1 + 4 + zlen (enc_arg_list l)) 0 ltac:(lia) ltac:(lia) ltac:(lia)).
      cbv [ret]. apply pair_ret; [|lia]. unfold it. dcbn. f_equal. lia. }
    step X. reflexivity.
  - reflexivity.
  - reflexivity.
  - unfold it; dcbn. destruct (expert e); lia.
  - unfold it; dcbn. rewrite NLines. destruct (expert e); lia.
  - rewrite NLines. destruct (expert e); lia.
  - intros h p Hp. unfold deploy_type_text; cbn. rewrite Hp. reflexivity.
  - intros i ln0 Hi.
    unfold session_item. cbn [dspecial it]. change (NativeTransfer =? NativeTransfer) with true. cbn iota.
    assert (I : exists it0 o', getItem_NativeTransfer it (Z.of_nat i) e o = (Ret it0, o') /\ shows (hash e) (timefmt e) ln0 it0).
    { unfold getItem_NativeTransfer. rewrite step_advance by lia. rewrite step_get_off. step RU.
      pose proof (nth_cases _ _ _ Hi) as Li.
      assert (Li' : 0 <= Z.of_nat i < zlen lines) by (unfold zlen; lia).
      rewrite step_check by (cbn [UI_runtime_items it]; destruct (expert e); lia).
      rewrite (u8_small (Z.of_nat i - UI_fixed_items it)) by (cbn [UI_fixed_items it]; destruct (expert e); lia).
      cbn [UI_fixed_items dgeneric it]. rewrite Z.sub_0_r.
      rewrite step_check by (cbn [UI_runtime_items it]; lia).
      replace ((zlen l =? 3) || (zlen l =? 4)) with true by lia. cbn [negb].
      rewrite step_ask. change (UI_runtime_items it) with (if expert e then zlen l else 2).
      unfold transfer_review in R. change (S.len l) with (zlen l) in R.
      destruct (zlen l =? 3) eqn:E3; [|destruct (zlen l =? 4) eqn:E4; [|lia]];
        (destruct (all _) as [r|] eqn:E in R; [|discriminate]; all_inv E; inversion R; subst; clear R);
        destruct (expert e); cbn [firstn tl] in Hi; cbn [negb andb];
        try (replace (zlen l =? 4) with false by lia); try rewrite E4;
        nth_split Hi; ground_eqb.
      all: try (eapply show_arg_at; eassumption).
      all: try (eapply show_motes_at; eassumption). }
    exact I.
Qed.
