From Verif Require Import Base Zxlib Crypto Utils RuntimeArg Deploy DeployUI TxV1 TxV1UI Parser BaseFacts Spec Exec ArgsFacts ReaderFacts RangeFacts BindFacts ExtFacts.
Import S.
(** ** Screens *)
Lemma stab_printBytes o n : stab qs (parser_printBytes o n). Proof. unfold parser_printBytes. stb. Qed.
Lemma stab_printAddress o n : stab qs (parser_printAddress o n). Proof. unfold parser_printAddress. stb. Qed.
Lemma stab_string_at k o n : stab qs (DISPLAY_STRING k o n). Proof. unfold DISPLAY_STRING. stb. Qed.
#[export] Hint Resolve stab_printBytes stab_printAddress stab_string_at : stab.
Lemma stab_arg t n : stab qs (display_runtimeArg t n). Proof. unfold display_runtimeArg, display_pre, amount_bignum. stb. Qed.
Lemma stab_motes t n : stab qs (display_runtimeArgMotes t n).
Proof. unfold display_runtimeArgMotes, display_pre, amount_bignum, amount_int. stb. Qed.
#[export] Hint Resolve stab_arg stab_motes : stab.
Lemma stab_show_arg k a n : stab qs (show_arg k a n). Proof. unfold show_arg. stb. Qed.
Lemma stab_show_motes k a n : stab qs (show_motes k a n). Proof. unfold show_motes. stb. Qed.
Lemma stab_args_hash s n name : stab qs (args_hash s n name). Proof. unfold args_hash, showRuntimeArgsHash. stb. Qed.
Lemma stab_by_index i n : stab qs (showRuntimeArgByIndex i n). Proof. unfold showRuntimeArgByIndex. stb. Qed.
Lemma stab_version_d : stab qs parse_version. Proof. unfold parse_version. stb. Qed.
Lemma stab_render ep : stab qs (render_entry_point ep). Proof. unfold render_entry_point. stb. Qed.
#[export] Hint Resolve stab_show_arg stab_show_motes stab_args_hash stab_by_index stab_version_d stab_render : stab.
Lemma stab_transfer_item i idx : stab qs (getItem_NativeTransfer i idx). Proof. unfold getItem_NativeTransfer. stb. Qed.
Lemma stab_payment_item i idx : stab qs (getItem_SystemPayment i idx). Proof. unfold getItem_SystemPayment. stb. Qed.
Lemma stab_fixed_item i ep idx : stab qs (render_fixed_delegation_items i ep idx).
Proof. unfold render_fixed_delegation_items, render_contract_hash, render_address, render_name. stb. Qed.
#[export] Hint Resolve stab_transfer_item stab_payment_item stab_fixed_item : stab.
Lemma stab_delegation_item i ep idx : stab qs (getItem_Delegation i ep idx). Proof. unfold getItem_Delegation. stb. Qed.
Lemma stab_timestamp : stab qs show_timestamp. Proof. unfold show_timestamp. stb. Qed.
Lemma stab_ttl : stab qs show_ttl. Proof. unfold show_ttl. stb. Qed.
Lemma stab_index_deploy h p : stab qs (index_headerpart_deploy h p). Proof. unfold index_headerpart_deploy. stb. Qed.
#[export] Hint Resolve stab_delegation_item stab_timestamp stab_ttl stab_index_deploy : stab.
Lemma stab_deploy_item v idx : stab qs (getItemDeploy v idx). Proof. unfold getItemDeploy. cbv zeta. stb. Qed.

Lemma existsb_app_l m post : existsb (Z.eqb 0) m = true -> existsb (Z.eqb 0) (m ++ post) = true.
Proof. intros H. rewrite existsb_app, H. reflexivity. Qed.
Lemma cstr_nul m post : existsb (Z.eqb 0) m = true -> cstr (m ++ post) = cstr m.
Proof.
  induction m as [|c m IH]; cbn [existsb Datatypes.app cstr]; [discriminate|]. intros H.
  destruct (c =? 0) eqn:E; [reflexivity|]. replace (0 =? c) with false in H by lia. f_equal. auto.
Qed.
Lemma stab_text_at o n : stab qs (text_at o n).
Proof.
  intros e e' c (post & -> & _) K. unfold text_at, bind, ask in *. cbn [mem].
  set (a := if 0 <=? o then skipn (Z.to_nat o) (mem e) else []) in *. cbv zeta in *.
  set (a' := if 0 <=? o then skipn (Z.to_nat o) (mem e ++ post) else []).
  assert (exists q, a' = a ++ q) as [q ->].
  { unfold a, a'. destruct (0 <=? o); [rewrite skipn_app; eauto | exists []; reflexivity]. }
  rewrite zlen_app. assert (Z0 := zlen_nonneg q). set (p := int_of_u32 n) in *.
  destruct ((0 <=? p) && (p <=? zlen a)) eqn:E.
  - apply andb_prop in E. replace ((0 <=? p) && (p <=? zlen a + zlen q)) with true by (symmetry; apply andb_true_intro; split; lia).
    rewrite firstn_app. replace (Z.to_nat p - List.length a)%nat with O by (unfold zlen in E; lia). cbn [firstn]. rewrite app_nil_r. reflexivity.
  - destruct (existsb (Z.eqb 0) a) eqn:N; [|destruct K].
    destruct ((0 <=? p) && (p <=? zlen a + zlen q)) eqn:F.
    + apply andb_prop in F. apply Bool.andb_false_iff in E. rewrite firstn_app.
      assert (Lp : (List.length a <= Z.to_nat p)%nat) by (clearbody a p; unfold zlen in E; destruct E, F; lia). rewrite (firstn_all2 _ Lp). rewrite (cstr_nul a _ N). reflexivity.
    + rewrite (existsb_app_l _ _ N), (cstr_nul a _ N). reflexivity.
Qed.
#[export] Hint Resolve stab_text_at : stab.
Lemma stab_custom_hash v : stab qs (show_custom_args_hash v). Proof. unfold show_custom_args_hash. stb. Qed.
#[export] Hint Resolve stab_custom_hash : stab.
Lemma stab_custom v idx : stab qs (getItem_Custom v idx).
Proof. unfold getItem_Custom, show_text, show_hash_decimal. cbv zeta. stb. Qed.
Lemma stab_index_v1 v p : stab qs (index_headerpart_txnV1 v p). Proof. unfold index_headerpart_txnV1. cbv zeta. stb. Qed.
#[export] Hint Resolve stab_custom stab_index_v1 : stab.
Lemma stab_payment_value v : stab qs (payment_value v). Proof. unfold payment_value. stb. Qed.
Lemma stab_gas_value v : stab qs (gas_value v). Proof. unfold gas_value. stb. Qed.
Lemma stab_v1_transfer n idx : stab qs (getItem_txV1_Transfer n idx).
Proof. unfold getItem_txV1_Transfer. cbv zeta. stb. all: try (destruct (x =? parser_no_data) eqn:E; [apply Z.eqb_eq in E; subst; discriminate|]; cbn; congruence). Qed.
Lemma stab_exists s a n : stab qs (exists_arg s a n).
Proof. unfold exists_arg. stb. destruct (x =? parser_no_data) eqn:E; [apply Z.eqb_eq in E; subst; discriminate|]; cbn; congruence. Qed.
#[export] Hint Resolve stab_v1_transfer stab_exists : stab.
Lemma stab_redelegate n idx : stab qs (getItem_Redelegate n idx). Proof. unfold getItem_Redelegate. cbv zeta. stb. Qed.
Lemma stab_addbid n idx : stab qs (getItem_AddBid n idx). Proof. unfold getItem_AddBid. stb. Qed.
Lemma stab_withdraw n idx : stab qs (getItem_WithdrawBid n idx). Proof. unfold getItem_WithdrawBid. stb. Qed.
Lemma stab_delegate n idx : stab qs (getItem_Delegate n idx). Proof. unfold getItem_Delegate. stb. Qed.
Lemma stab_activate n idx : stab qs (getItem_ActivateBid n idx). Proof. unfold getItem_ActivateBid. stb. Qed.
Lemma stab_changepk n idx : stab qs (getItem_ChangePublicKey n idx). Proof. unfold getItem_ChangePublicKey. stb. Qed.
Lemma stab_addres idx : stab qs (getItem_AddReservations idx). Proof. unfold getItem_AddReservations, show_first_byte, show_value_hash. stb. Qed.
Lemma stab_cancel idx : stab qs (getItem_CancelReservations idx). Proof. unfold getItem_CancelReservations, show_first_byte, show_value_hash. stb. Qed.
#[export] Hint Resolve stab_redelegate stab_addbid stab_withdraw stab_delegate stab_activate stab_changepk stab_addres stab_cancel : stab.
