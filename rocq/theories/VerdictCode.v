(** Code longer than what its hash is computed from fits. *)
From Verif Require Import Base Zxlib Crypto Utils RuntimeArg Deploy DeployUI TxV1 TxV1UI Parser BaseFacts Spec SpecText SpecDeploy SpecRaw SpecBlind SpecVerdict Exec ArgsFacts ReaderFacts TextFacts Shows DeployArgs SessionFacts DelegationFacts StoredFacts ModuleFacts ReviewFacts Demo RawShow BlindReview BlindFacts VerdictFacts VerdictLost.
Import S ST SD SB SY.

Lemma part_ok e o s t lines r : sess_part (List.length lines) e o s t lines r -> sess_ok e o s t lines r.
Proof. intros [A B C D E F G H]. constructor; auto. intros i l Hi. apply H; [|exact Hi]. apply nth_error_Some. congruence. Qed.

(** * Code, as far as its first lines are shown *)
Definition args_start (o : Z) (w : list Z) : Z := o + 1 + (4 + zlen w) + 4.
Definition measured (w : list Z) (l : list arg) (it : ditem) : ditem := set_total (1 + (4 + zlen w + (4 + zlen (enc_arg_list l)))) it.
Lemma code_pieces e o w l : wf e -> at_ e o (enc_session (Module w l)) ->
  at_ e (o + 1) (lv w) /\ readU32 e (o + 1 + (4 + zlen w)) = (Ret (zlen l), args_start o w) /\ at_ e (args_start o w) (enc_arg_list l) /\
  zlen (enc_session (Module w l)) = 1 + (4 + zlen w + (4 + zlen (enc_arg_list l))) /\
  0 <= o /\ args_start o w + zlen (enc_arg_list l) <= blen e < 65536.
Proof.
  intros W A. pose proof (at_bound _ _ _ W A) as B. pose proof (wf_max e W) as M. cbn [enc_session] in *. rewrite zlen_cons, zlen_app in *.
  apply at_cons in A. destruct A as [_ A]. apply at_app in A. destruct A as [A1 A2].
  destruct (at_args _ _ _ W A2) as (RU & A3 & ZL). rewrite ZL, zlen_lv in *. unfold args_start. repeat split; auto; lia.
Qed.
Lemma code_part k e o w l it0 ty lines :
  wf e -> Forall arg_ok l -> at_ e o (enc_session (Module w l)) ->
  parseDelegation (init_item 0) (zlen l) false e (args_start o w) = (Ret it0, args_start o w) ->
  0 <= UI_fixed_items it0 -> 0 <= UI_runtime_items it0 -> UI_fixed_items it0 + UI_runtime_items it0 = zlen lines -> zlen lines <= 8 ->
  (forall h p, dspecial p = SystemPayment -> deploy_type_text (mkDeploy h p (measured w l it0) 0) = ty) ->
  (forall i l0, (i < k)%nat -> nth_error lines i = Some l0 -> displays (session_item (measured w l it0) 0 (Z.of_nat i)) e o l0) ->
  sess_part k e o (Module w l) ty lines (measured w l it0, 0).
Proof.
  intros W F A PD N1 N2 SU FEW TY IS. destruct (code_pieces e o w l W A) as (A1 & RU & A3 & ZT & B).
  pose proof (zlen_nonneg w). pose proof (zlen_nonneg (enc_arg_list l)).
  pose proof (zlen_nonneg (lv w)) as LV. rewrite zlen_lv in LV. unfold args_start in B.
  constructor; cbn [fst snd]; auto. cbn [stype]. unfold parseDeployItem_session. change (0 =? ModuleBytes) with true. cbv iota.
  assert (X : parseModuleBytes_session (init_item 0) e (o + 1) = (Ret (measured w l it0), o + zlen (enc_session (Module w l)))).
  { unfold parseModuleBytes_session, off32. rewrite bind_assoc, step_get_off, bind_assoc, step_ask, step_ret.
    step (parse_item_at w e _ W A1). rewrite zlen_lv. step RU. step PD. unfold args_start in *.
    step (parseRuntimeArgs_at l e _ W (args_supported _ F) A3).
    step (total_at (o + 1) e (o + 1 + (4 + zlen w) + 4 + zlen (enc_arg_list l)) 0 ltac:(lia) ltac:(lia) ltac:(lia)).
    rewrite ZT. cbv [ret]. apply pair_ret; [|lia]. unfold measured. f_equal. lia. }
  step X. reflexivity.
Qed.

(** * The lines in front of the arguments *)
Definition code_line (e : env) (it : ditem) : bool := expert e || (dspecial it =? Generic).
Lemma fixed_line it i e o : 0 <= o < 65535 -> dtype it = ModuleBytes -> (dspecial it =? NativeTransfer) = false /\
  ((dspecial it =? Delegate) || (dspecial it =? UnDelegate) || (dspecial it =? ReDelegate) || (dspecial it =? Generic)) = true ->
  Z.of_nat i < UI_fixed_items it ->
  session_item it 0 (Z.of_nat i) e o
  = (if (Z.of_nat i =? 0) && code_line e it then ret (execution "contract")
     else if (Z.of_nat i =? 1) && code_line e it then render_contract_hash
     else parse_item ;; ret question) e (o + 1).
Proof.
  intros B DT [S1 S2] Li. unfold session_item. rewrite S1, S2. unfold getItem_Delegation. rewrite step_advance by lia.
  replace (Z.of_nat i <? UI_fixed_items it) with true by lia.
  unfold render_fixed_delegation_items. rewrite step_ask, DT. change (ModuleBytes =? ModuleBytes) with true. cbv iota zeta. reflexivity.
Qed.
Lemma code_over w e o : wf e -> at_ e o (lv w) -> 32 < zlen w -> exists o', render_contract_hash e o = (Undef OobWrite, o').
Proof.
  intros W A L. pose proof (at_bound _ _ _ W A) as B. apply at_lv in A. destruct A as [A1 A2]. rewrite zlen_lv in B.
  eexists. unfold render_contract_hash. step (readU32_at (zlen w) e o W A1 ltac:(lia)). rewrite step_get_off, (step_at _ _ w) by auto.
  unfold require. replace (zlen w <=? 32) with false by lia. reflexivity.
Qed.
Lemma fixed_fine it i w e o : wf e -> at_ e (o + 1) (lv w) -> 0 <= o < 65535 -> dtype it = ModuleBytes -> (dspecial it =? NativeTransfer) = false /\
  ((dspecial it =? Delegate) || (dspecial it =? UnDelegate) || (dspecial it =? ReDelegate) || (dspecial it =? Generic)) = true ->
  Z.of_nat i < UI_fixed_items it -> (code_line e it = true -> zlen w <= 32) ->
  displays (session_item it 0 (Z.of_nat i)) e o
    (if code_line e it then nth i (code_review (hash e) w) (ln "?" (Words (text "?"))) else ln "?" (Words (text "?"))).
Proof.
  intros W A B DT SP Li LW. unfold displays. rewrite (fixed_line it i e o B DT SP Li). destruct (code_line e it).
  - rewrite !andb_true_r. destruct i as [|[|i]].
    + destruct (execution_at "contract" e (o + 1)) as (v & o' & E & Q). exists v, o'. split; [exact E|exact Q].
    + change ((if Z.of_nat 1 =? 0 then ret (execution "contract") else if Z.of_nat 1 =? 1 then render_contract_hash else parse_item ;; ret question) e (o + 1)) with (render_contract_hash e (o + 1)).
      exact (code_at w e (o + 1) W A (LW eq_refl)).
    + replace (Z.of_nat (Datatypes.S (Datatypes.S i)) =? 0) with false by lia. replace (Z.of_nat (Datatypes.S (Datatypes.S i)) =? 1) with false by lia.
      eexists _, _. split; [step (parse_item_at w e _ W A); reflexivity|]. destruct i; split; reflexivity.
  - rewrite !andb_false_r. eexists _, _. split; [step (parse_item_at w e _ W A); reflexivity|]. split; reflexivity.
Qed.
