(** Code with an argument auction, whatever it says. *)
From Verif Require Import Base Zxlib Crypto Utils RuntimeArg Deploy DeployUI TxV1 TxV1UI Parser BaseFacts Spec SpecText SpecDeploy SpecRaw SpecBlind SpecVerdict Exec ArgsFacts ReaderFacts TextFacts Shows DeployArgs SessionFacts DelegationFacts StoredFacts ModuleFacts ReviewFacts Demo RawShow BindFacts RawFacts BlindReview BlindFacts VerdictFacts VerdictLost VerdictCode.
Import S ST SD SB SY.

(** * What is read *)
Definition named_item (x : bool) (l : list arg) (s : Z) : ditem :=
  let sp := special_of (auction_deed l) in
  let none := match auction_deed l with Some _ => false | None => true end in
  if plain_types l then
    if negb none && has_delegation_args l
    then mkD 0 sp false (if x then 2 else 0) (if has "new_validator" l then 4 else 3) 0 s
    else mkD 0 sp true (if x then 3 else 2) (if has "amount" l then 2 else 1) 0 s
  else mkD 0 sp none (if x then if none then 3 else 2 else 0) 0 0 s.
Lemma deed_lv l a nm : find_arg (text "auction") l = Some a -> a_val a = lv nm -> auction_deed l = operation_of nm.
Proof. intros FA V. unfold auction_deed. rewrite FA, V. reflexivity. Qed.
Lemma refusal_none w l : session_refusal (Module w l) = None -> auction_refusal l = None /\ typed_if_present is_key_type "new_validator" l = true.
Proof. cbn [session_refusal]. destruct (auction_refusal l); [discriminate|]. destruct (typed_if_present is_key_type "new_validator" l); [auto|discriminate]. Qed.
Lemma named_parsed e w l s :
  wf e -> Forall arg_ok l -> at_ e s (enc_arg_list l) -> plain_code (Module w l) -> has "auction" l = true -> session_refusal (Module w l) = None ->
  parseDelegation (init_item 0) (zlen l) false e s = (Ret (named_item (expert e) l s), s).
Proof.
  intros W F A PC HA NR. apply refusal_none in NR. destruct NR as [AR TN].
  destruct (find_arg (text "auction") l) as [a|] eqn:FA; [|unfold has in HA; rewrite FA in HA; discriminate].
  pose proof (module_auction w l e s a W F A PC FA) as MA. rewrite AR in MA. destruct MA as (nm & V & MA).
  pose proof (deed_lv l a nm FA V) as DE. rewrite <- DE in MA.
  unfold parseDelegation. change (dtype (init_item 0) =? ModuleBytes) with true. cbv iota. step MA. cbn [fst snd].
  assert (TN' : has "new_validator" l = true -> typed_ok is_key_type "new_validator" l) by (intros Q; apply has_typed; auto).
  unfold named_item. destruct (plain_types l) eqn:PT.
  - destruct (auction_deed l) as [op|]; cbn [negb andb]; [destruct (has_delegation_args l) eqn:HD|].
    + rewrite delegation_args_op; auto; [|dcbn; destruct op; discriminate].
      rewrite andb_true_r. unfold expert_fixed. dcbn. destruct (expert e), (has "new_validator" l); reflexivity.
    + rewrite delegation_args_generic; auto. rewrite andb_true_r. unfold expert_fixed. dcbn. destruct (expert e), (has "amount" l); reflexivity.
    + rewrite delegation_args_generic; auto. rewrite andb_true_r. unfold expert_fixed. dcbn. destruct (expert e), (has "amount" l); reflexivity.
  - rewrite delegation_args_ill; auto. cbv zeta. rewrite andb_true_r. unfold expert_fixed. dcbn. destruct (auction_deed l) as [[]|], (expert e); reflexivity.
Qed.
Lemma auction_is l : auction_refusal l = None -> (forall a, find_arg (text "auction") l = Some a -> is_string (a_ty a) = true -> exists s, a_val a = lv s) ->
  auction_op l = match auction_deed l with Some op => if Bool.eqb (is_redelegate (Some op)) (has "new_validator" l) then Some op else None | None => None end.
Proof.
  unfold auction_refusal, auction_deed, auction_op. destruct (find_arg (text "auction") l) as [a|]; [|reflexivity]. intros AR PC. specialize (PC a eq_refl).
  change (match a_ty a with Prim 10 => true | _ => false end) with (is_string (a_ty a)). destruct (is_string (a_ty a)); [|discriminate]. destruct (PC eq_refl) as [s V].
  destruct (S.len (a_val a) <=? 100); [|discriminate]. assert (LV : exists b0 b1 b2 b3, lv s = b0 :: b1 :: b2 :: b3 :: s) by (do 4 eexists; reflexivity).
  destruct LV as (b0 & b1 & b2 & b3 & LV). rewrite V, LV. cbn [andb]. rewrite <- LV. replace (skipn 4 (lv s)) with s by (rewrite LV; reflexivity).
  destruct (list_eq_dec Z.eq_dec (lv s) (lv s)) as [_|N]; [|contradiction]. destruct (operation_of s) as [[]|], (has "new_validator" l); reflexivity.
Qed.
Lemma op_item_past op j e o i m : dspecial j = special_of (Some op) -> nth_error (op_names op) i = None -> op_item j (Z.of_nat i) m e o = (Fail parser_no_data, o).
Proof.
  intros Sp Hi. apply nth_error_None in Hi. unfold op_item. rewrite Sp. destruct op; cbn [op_names special_of List.length] in *.
  3: replace (Z.of_nat i =? 3) with false by lia.
  all: replace (Z.of_nat i =? 0) with false by lia; replace (Z.of_nat i =? 1) with false by lia; replace (Z.of_nat i =? 2) with false by lia; reflexivity.
Qed.

(** * Operations some of whose arguments are not found *)
Definition reach_of (l : list arg) : nat := if has "new_validator" l then 4 else 3.
Lemma lost_named e o w l op :
  wf e -> Forall arg_ok l -> at_ e o (enc_session (Module w l)) -> plain_code (Module w l) -> has "auction" l = true -> session_refusal (Module w l) = None ->
  plain_types l = true -> auction_deed l = Some op -> has_delegation_args l = true -> sound l -> (expert e = true -> zlen w <= 32) ->
  let k := firstn (reach_of l) l in
  forall j, (j < reach_of l)%nat -> (forall i, (i < j)%nat -> exists nm, nth_error (op_names op) i = Some nm /\ has nm k = true) ->
    (forall nm, nth_error (op_names op) j = Some nm -> has nm k = false) ->
  let it := measured w l (named_item (expert e) l (args_start o w)) in
  let m := (Z.to_nat (UI_fixed_items it) + j)%nat in
  let lines := repeat filler (Z.to_nat (UI_fixed_items it) + reach_of l) in
  sess_part 0 e o (Module w l) (op_text op) lines (it, 0) /\ (m < List.length lines)%nat /\
  (forall i, (i < m)%nat -> exists v o', session_item it 0 (Z.of_nat i) e o = (Ret v, o')) /\
  exists o', session_item it 0 (Z.of_nat m) e o = (Fail parser_no_data, o').
Proof.
  intros W F A PC HA NR PT DE HD SO LW k j Lj FJ HJ it m lines.
  destruct (code_pieces e o w l W A) as (A1 & RU & A3 & ZT & B).
  pose proof (zlen_nonneg w). pose proof (zlen_nonneg (enc_arg_list l)). unfold args_start in B.
  set (s := args_start o w) in *. assert (SV : s = o + 1 + (4 + zlen w) + 4) by reflexivity.
  pose proof (refusal_none _ _ NR) as [AR TN].
  set (q := reach_of l) in *. assert (QV : (3 <= q <= 4)%nat) by (unfold q, reach_of; destruct (has "new_validator" l); lia).
  assert (N0 : named_item (expert e) l s = mkD 0 (special_of (Some op)) false (if expert e then 2 else 0) (Z.of_nat q) 0 s).
  { unfold named_item. rewrite PT, DE, HD. cbn [negb andb]. unfold q, reach_of. destruct (has "new_validator" l); reflexivity. }
  assert (NF : 0 <= UI_fixed_items it <= 2) by (unfold it; rewrite N0; unfold measured; dcbn; destruct (expert e); lia).
  assert (RT : UI_runtime_items it = Z.of_nat q) by (unfold it; rewrite N0; reflexivity).
  assert (SP : dspecial it = special_of (Some op)) by (unfold it; rewrite N0; reflexivity).
  assert (IO : itemOffset it = s) by (unfold it; rewrite N0; reflexivity).
  assert (DT : dtype it = ModuleBytes) by (unfold it; rewrite N0; reflexivity).
  assert (DG : dgeneric it = false) by (unfold it; rewrite N0; reflexivity).
  assert (SS : (dspecial it =? NativeTransfer) = false /\
    ((dspecial it =? Delegate) || (dspecial it =? UnDelegate) || (dspecial it =? ReDelegate) || (dspecial it =? Generic)) = true)
    by (apply sessions_shown; rewrite SP; apply special_cases).
  assert (LL : zlen lines = UI_fixed_items it + Z.of_nat q) by (unfold lines, zlen; rewrite repeat_length; lia).
  assert (ZK : zlen k = Z.of_nat q).
  { assert (Z.of_nat q <= zlen l).
    { unfold has_delegation_args in HD. rewrite !andb_true_iff in HD. destruct HD as [[H1 H2] H3].
      pose proof (several (["amount"; "delegator"; "validator"])%string l ltac:(distinct) ltac:(repeat constructor; auto)) as Q. change (zlen (["amount"; "delegator"; "validator"])%string) with 3 in Q.
      unfold q, reach_of. destruct (has "new_validator" l) eqn:HV; [|lia].
      pose proof (several (["amount"; "delegator"; "validator"; "new_validator"])%string l ltac:(distinct) ltac:(repeat constructor; auto)) as Q'.
      change (zlen (["amount"; "delegator"; "validator"; "new_validator"])%string) with 4 in Q'. lia. }
    unfold k, zlen in *. rewrite firstn_length. lia. }
  assert (AK : at_ e s (enc_arg_list k)) by (apply at_firstn, A3).
  assert (FK : Forall arg_ok k).
  { rewrite Forall_forall in *. intros a0 Ia. apply F. rewrite <- (firstn_skipn q l). apply in_or_app. left. exact Ia. }
  assert (TK : op_typed_all op k).
  { assert (Y : forall nm0 ok, typed_if_present ok nm0 l = true -> typed_if_present ok nm0 k = true).
    { intros nm2 ok. unfold typed_if_present. destruct (find_arg (text nm2) k) as [a0|] eqn:E; [|reflexivity]. apply find_firstn in E. rewrite E. auto. }
    unfold plain_types in PT. rewrite !andb_true_iff in PT. destruct PT as [[T1 T2] T3]. split; [auto|]. split; [auto|]. split; [auto|]. auto. }
  assert (RUN : forall i, (i < q)%nat -> session_item it 0 (Z.of_nat (Z.to_nat (UI_fixed_items it) + i)) e o = op_item it (Z.of_nat i) (zlen k) e s).
  { intros i Li. unfold session_item. destruct SS as [-> ->]. unfold getItem_Delegation. rewrite step_advance by lia.
    replace (Z.of_nat (Z.to_nat (UI_fixed_items it) + i) <? UI_fixed_items it) with false by lia.
    rewrite step_set_off by lia. rewrite u8_small by lia. rewrite step_check by lia.
    rewrite DG, DT. change (ModuleBytes =? ModuleBytes) with true. cbv iota. rewrite step_ret, IO.
    replace (Z.of_nat (Z.to_nat (UI_fixed_items it) + i) - UI_fixed_items it) with (Z.of_nat i) by lia.
    rewrite RT, <- ZK. reflexivity. }
  split; [|split; [|split]].
  - apply code_part; auto.
    + eapply named_parsed; eauto.
    + change (0 <= UI_fixed_items it). lia.
    + change (0 <= UI_runtime_items it). lia.
    + change (UI_fixed_items it + UI_runtime_items it = zlen lines). lia.
    + lia.
    + intros h py Hp. unfold deploy_type_text. cbn [Deploy.payment Deploy.session]. rewrite Hp. fold it. rewrite SP, DG, DT. destruct op; reflexivity.
    + intros i l0 Q. lia.
  - unfold m, lines. rewrite repeat_length. lia.
  - intros i Li. destruct (Nat.lt_ge_cases i (Z.to_nat (UI_fixed_items it))) as [Q|Q].
    + destruct (fixed_fine it i w e o W A1 ltac:(lia) DT SS ltac:(lia)) as (v & o' & E & _); [|eauto].
      unfold code_line. rewrite SP. intros X. apply LW. destruct (expert e); [reflexivity|]. destruct op; discriminate X.
    + replace i with (Z.to_nat (UI_fixed_items it) + (i - Z.to_nat (UI_fixed_items it)))%nat by lia. unfold m in Li. rewrite RUN by lia.
      destruct (FJ (i - Z.to_nat (UI_fixed_items it))%nat ltac:(lia)) as (nm & En & Hn).
      eapply op_item_some; eauto. apply sound_first, SO.
  - unfold m. rewrite RUN by lia. destruct (nth_error (op_names op) j) as [nm|] eqn:En; [eapply op_item_none; eauto|eexists; apply (op_item_past op); auto].
Qed.
(** Where the first argument that is not found stands. *)
Lemma lost_place l op : auction_refusal l = None -> plain_code (Module [] l) -> auction_deed l = Some op -> ~ (auction_op l = Some op /\ early op l) ->
  let k := firstn (reach_of l) l in
  exists j, (j < reach_of l)%nat /\ (forall i, (i < j)%nat -> exists nm, nth_error (op_names op) i = Some nm /\ has nm k = true) /\
    (forall nm, nth_error (op_names op) j = Some nm -> has nm k = false).
Proof.
  intros AR PC DE NE k. pose proof (auction_is l AR PC) as AI. rewrite DE in AI.
  assert (FK : has "new_validator" l = false -> has "new_validator" k = false).
  { unfold has. destruct (find_arg (text "new_validator") l) eqn:E; [discriminate|]. intros _. destruct (find_arg (text "new_validator") k) eqn:E'; [|reflexivity]. apply find_firstn in E'. congruence. }
  destruct (forallb (fun nm => has nm k) (op_names op)) eqn:FB.
  - destruct (Bool.eqb (is_redelegate (Some op)) (has "new_validator" l)) eqn:EB.
    + exfalso. apply NE. split; [exact AI|]. apply Bool.eqb_prop in EB.
      assert (RQ : reach_of l = Z.to_nat (op_args op)) by (unfold reach_of; rewrite <- EB; destruct op; reflexivity).
      unfold k in FB. rewrite RQ, <- forallb_names in FB. apply andb_true_iff in FB. destruct FB as [F1 F2]. split; [exact F1|]. intros ->. exact F2.
    + assert (RN : has "new_validator" l = true /\ op <> ORedelegate).
      { destruct op; cbn [is_redelegate] in EB; destruct (has "new_validator" l) eqn:HV; try discriminate EB; try (split; [reflexivity|discriminate]).
        exfalso. cbn [op_names forallb] in FB. rewrite (FK eq_refl) in FB. destruct (has "delegator" k), (has "validator" k); discriminate FB. }
      destruct RN as [HV NR]. exists 3%nat. unfold reach_of. rewrite HV. split; [lia|]. split.
      * intros i Li. destruct (nth_error (op_names op) i) as [nm|] eqn:En.
        -- exists nm. split; [reflexivity|]. rewrite forallb_forall in FB. apply FB. eapply nth_error_In, En.
        -- exfalso. apply nth_error_None in En. destruct op; cbn in En; lia.
      * intros nm En. destruct op; cbn in En; [discriminate|discriminate|contradiction].
  - destruct (first_missing _ _ FB) as (j & nm & NJ & HJ & FJ). exists j. split; [|split].
    + destruct (Nat.lt_ge_cases j (reach_of l)) as [Q|Q]; [exact Q|exfalso].
      assert (JL : (j < List.length (op_names op))%nat) by (apply nth_error_Some; congruence).
      unfold reach_of in Q. destruct (has "new_validator" l) eqn:HV; [destruct op; cbn in JL; lia|].
      destruct op; cbn [op_names List.length] in JL; try lia. specialize (FJ 2%nat "new_validator"%string ltac:(lia) eq_refl). rewrite (FK eq_refl) in FJ. discriminate.
    + intros i Li. destruct (nth_error (op_names op) i) as [nm'|] eqn:En; [eauto|]. exfalso. apply nth_error_None in En.
      assert (JL : (j < List.length (op_names op))%nat) by (apply nth_error_Some; congruence). lia.
    + intros nm' E. rewrite NJ in E. injection E as <-. exact HJ.
Qed.

(** * Arguments looked for in the wrong place *)
Lemma big_length e o (a : arg) : wf e -> at_ e o (enc_arg a) -> 3 <= zlen (a_name a) -> Forall (fun b => b < 128) (a_name a) -> ~ In 0 (a_name a) ->
  exists v, readU32 e (o + 4) = (Ret v, o + 8) /\ 65536 <= v < 4294901760 /\ o + 8 <= blen e.
Proof.
  intros W A LN LT NZ. pose proof (at_bound _ _ _ W A) as B. pose proof (at_bytes _ _ _ W A) as BY.
  unfold enc_arg in A, B, BY. rewrite app_assoc in A, BY. apply at_app in A. destruct A as [A _]. apply bytes_app in BY. destruct BY as [BY _].
  rewrite !zlen_app, !zlen_lv in B. pose proof (zlen_nonneg (a_val a)). pose proof (zlen_nonneg (enc_type (a_ty a))).
  destruct (a_name a) as [|b0 [|b1 [|b2 nm]]]; try (unfold zlen in LN; cbn in LN; lia).
  unfold lv in A at 1, BY at 1. rewrite <- app_assoc in A, BY. apply at_app in A. destruct A as [_ A]. apply bytes_app in BY. destruct BY as [_ BY].
  change (zlen (le 4 (S.len (b0 :: b1 :: b2 :: nm)))) with 4 in A.
  assert (X : exists b3 r, (b0 :: b1 :: b2 :: nm) ++ lv (a_val a) = [b0; b1; b2; b3] ++ r).
  { destruct nm as [|b3 nm]; [exists (S.len (a_val a) mod 256); eexists; reflexivity|exists b3; eexists; reflexivity]. }
  destruct X as (b3 & r & X). rewrite X in A, BY. apply at_app in A. destruct A as [A _]. apply bytes_app in BY. destruct BY as [BY _].
  pose proof (le_value 4 [b0; b1; b2; b3] BY eq_refl) as LV. rewrite <- LV in A.
  assert (R0 : 0 <= b0 < 256 /\ 0 <= b1 < 256 /\ 0 < b2 < 128 /\ 0 <= b3 < 256).
  { unfold bytes in BY. inversion_clear BY as [|? ? Q0 BY1]. inversion_clear BY1 as [|? ? Q1 BY2]. inversion_clear BY2 as [|? ? Q2 BY3]. inversion_clear BY3 as [|? ? Q3 _].
    unfold byte in *. inversion_clear LT as [|? ? _ L1]. inversion_clear L1 as [|? ? _ L2]. inversion_clear L2 as [|? ? L3 _].
    assert (b2 <> 0) by (intros ->; apply NZ; right; right; left; reflexivity). lia. }
  assert (V : value [b0; b1; b2; b3] = b0 + 256 * b1 + 65536 * b2 + 16777216 * b3) by (unfold value; cbn [value_at]; change (256 ^ 0) with 1; change (256 ^ (0 + 1)) with 256; change (256 ^ (0 + 1 + 1)) with 65536; change (256 ^ (0 + 1 + 1 + 1)) with 16777216; lia).
  exists (value [b0; b1; b2; b3]). split; [|split].
  - replace (o + 8) with (o + 4 + 4) by lia. apply readU32_at; auto. lia.
  - lia.
  - unfold zlen in B, LN. cbn [List.length] in B, LN. lia.
Qed.
Lemma loop_fails {S R} n (body : S -> P (flow S R)) s e o c o' : 0 < n -> body s e o = (Fail c, o') -> loop n body s e o = (Fail c, o').
Proof.
  intros N E. rewrite loop_iter. destruct (Z.to_nat n) as [|k] eqn:K; [lia|]. cbn [iter_loop]. apply bind_Fail, E.
Qed.
Lemma misread_named e o w l :
  wf e -> Forall arg_ok l -> at_ e o (enc_session (Module w l)) -> plain_code (Module w l) -> session_refusal (Module w l) = None ->
  misread (Module w l) = true -> legible l -> short_code (expert e) (Module w l) ->
  let it := measured w l (named_item (expert e) l (args_start o w)) in
  let m := Z.to_nat (UI_fixed_items it) in
  let lines := repeat filler (m + Z.to_nat (UI_runtime_items it)) in
  sess_part 0 e o (Module w l) "Contract execution" lines (it, 0) /\ (m < List.length lines)%nat /\
  (forall i, (i < m)%nat -> exists v o', session_item it 0 (Z.of_nat i) e o = (Ret v, o')) /\
  exists o', session_item it 0 (Z.of_nat m) e o = (Fail parser_unexpected_buffer_end, o').
Proof.
  intros W F A PC NR MR LG SC it m lines.
  destruct (code_pieces e o w l W A) as (A1 & RU & A3 & ZT & B).
  pose proof (zlen_nonneg w). pose proof (zlen_nonneg (enc_arg_list l)). unfold args_start in B.
  set (s := args_start o w) in *. assert (SV : s = o + 1 + (4 + zlen w) + 4) by reflexivity.
  cbn [misread] in MR. rewrite !andb_true_iff in MR. destruct MR as [[HA PT] MR].
  assert (N0 : named_item (expert e) l s = mkD 0 (special_of (auction_deed l)) true (if expert e then 3 else 2) (if has "amount" l then 2 else 1) 0 s).
  { unfold named_item. rewrite PT. destruct (auction_deed l); cbn [negb andb] in *; [destruct (has_delegation_args l); [discriminate|]|]; reflexivity. }
  assert (NF : UI_fixed_items it = if expert e then 3 else 2) by (unfold it; rewrite N0; reflexivity).
  assert (NF' : 2 <= UI_fixed_items it <= 3) by (rewrite NF; destruct (expert e); lia).
  assert (RT : UI_runtime_items it = if has "amount" l then 2 else 1) by (unfold it; rewrite N0; reflexivity).
  assert (RT' : 1 <= UI_runtime_items it <= 2) by (rewrite RT; destruct (has "amount" l); lia).
  assert (SP : dspecial it = special_of (auction_deed l)) by (unfold it; rewrite N0; reflexivity).
  assert (IO : itemOffset it = s) by (unfold it; rewrite N0; reflexivity).
  assert (DT : dtype it = ModuleBytes) by (unfold it; rewrite N0; reflexivity).
  assert (DG : dgeneric it = true) by (unfold it; rewrite N0; reflexivity).
  assert (SS : (dspecial it =? NativeTransfer) = false /\
    ((dspecial it =? Delegate) || (dspecial it =? UnDelegate) || (dspecial it =? ReDelegate) || (dspecial it =? Generic)) = true)
    by (apply sessions_shown; rewrite SP; apply special_cases).
  split; [|split; [|split]].
  - apply code_part; auto.
    + eapply named_parsed; eauto.
    + change (0 <= UI_fixed_items it). lia.
    + change (0 <= UI_runtime_items it). lia.
    + change (UI_fixed_items it + UI_runtime_items it = zlen lines). unfold lines, zlen, m. rewrite repeat_length. lia.
    + unfold lines, zlen, m. rewrite repeat_length. lia.
    + intros h py Hp. unfold deploy_type_text. cbn [Deploy.payment Deploy.session]. rewrite Hp. fold it. rewrite SP, DG, DT. destruct (auction_deed l) as [[]|]; reflexivity.
    + intros i l0 Q. lia.
  - unfold lines. rewrite repeat_length. lia.
  - intros i Li. unfold m in Li. destruct (fixed_fine it i w e o W A1 ltac:(lia) DT SS ltac:(lia)) as (v & o' & E & _); [|eauto].
    unfold code_line. rewrite SP. intros X. change (zlen w) with (S.len w). apply SC. cbn [shows_code]. rewrite HA, PT. destruct (expert e); [reflexivity|]. destruct (auction_deed l) as [[]|]; try discriminate X. reflexivity.
  - unfold session_item. destruct SS as [-> ->]. unfold getItem_Delegation. rewrite step_advance by lia.
    replace (Z.of_nat m <? UI_fixed_items it) with false by (unfold m; lia). rewrite step_set_off by lia.
    replace (Z.of_nat m - UI_fixed_items it) with 0 by (unfold m; lia). rewrite u8_small by lia. rewrite step_check by (unfold m; lia).
    rewrite DG, IO. destruct l as [|a r]; [discriminate HA|]. destruct LG as [LN LT]. change (S.len (a_name a)) with (zlen (a_name a)) in LN.
    assert (AA : at_ e s (enc_arg a)) by (unfold enc_arg_list in A3; cbn [List.map List.concat] in A3; apply at_app in A3; apply A3).
    inversion_clear F as [|? ? (FS & FN & FZ) _].
    destruct (big_length e s a W AA LN LT FZ) as (v & RV & V & B8).
    assert (RN : readU32 e s = (Ret (zlen (a_name a)), s + 4)).
    { apply readU32_at; auto; [|lia]. unfold enc_arg, lv at 1 in AA. rewrite <- app_assoc in AA. apply at_app in AA. apply AA. }
    step RN. destruct (has "amount" (a :: r)); rewrite RT; ground_eqb; cbn [andb].
    + eexists. unfold show_motes. apply bind_Fail. unfold getData. apply bind_Fail. apply loop_fails; [lia|]. unfold getData_body. apply bind_Fail.
      unfold copy_item_into_charbuffer. step RV. rewrite step_get_off, step_ask. apply bind_Fail. unfold check. replace ((v <=? 300) && (v <=? blen e - (s + 8))) with false by lia. reflexivity.
    + eexists. unfold args_hash. apply bind_Fail. unfold parseRuntimeArgs. apply bind_Fail. apply loop_fails; [lia|]. apply bind_Fail. unfold skip_arg. apply bind_Fail.
      unfold parse_item. step RV. rewrite step_get_off, step_ask. apply bind_Fail. unfold check. rewrite u32_small by lia. replace (s + 8 + v <=? blen e) with false by lia. reflexivity.
Qed.

(** * Code with an argument of an unexpected type: accepted *)
Lemma blind_named e o w l :
  wf e -> Forall arg_ok l -> at_ e o (enc_session (Module w l)) -> plain_code (Module w l) -> session_refusal (Module w l) = None ->
  has "auction" l = true -> plain_types l = false -> (expert e = true -> zlen w <= 32) ->
  sess_ok e o (Module w l) (deed_title l) (deed_lines (hash e) (expert e) w l) (measured w l (named_item (expert e) l (args_start o w)), 0).
Proof.
  intros W F A PC NR HA PT LW. set (it := measured w l (named_item (expert e) l (args_start o w))).
  destruct (code_pieces e o w l W A) as (A1 & RU & A3 & ZT & B).
  pose proof (zlen_nonneg w). pose proof (zlen_nonneg (enc_arg_list l)). unfold args_start in B.
  set (s := args_start o w) in *. assert (SV : s = o + 1 + (4 + zlen w) + 4) by reflexivity.
  assert (N0 : it = mkD 0 (special_of (auction_deed l)) (match auction_deed l with Some _ => false | None => true end)
    (if expert e then match auction_deed l with Some _ => 2 | None => 3 end else 0) 0 (1 + (4 + zlen w + (4 + zlen (enc_arg_list l)))) s).
  { unfold it, named_item, measured. rewrite PT. destruct (auction_deed l); reflexivity. }
  assert (SP : dspecial it = special_of (auction_deed l)) by (rewrite N0; reflexivity).
  assert (DT : dtype it = ModuleBytes) by (rewrite N0; reflexivity).
  assert (SS : (dspecial it =? NativeTransfer) = false /\
    ((dspecial it =? Delegate) || (dspecial it =? UnDelegate) || (dspecial it =? ReDelegate) || (dspecial it =? Generic)) = true)
    by (apply sessions_shown; rewrite SP; apply special_cases).
  assert (LL : zlen (deed_lines (hash e) (expert e) w l) = UI_fixed_items it).
  { rewrite N0. unfold deed_lines. dcbn. destruct (expert e), (auction_deed l); reflexivity. }
  assert (NF : 0 <= UI_fixed_items it <= 3) by (rewrite N0; dcbn; destruct (expert e), (auction_deed l); lia).
  assert (RT : UI_runtime_items it = 0) by (rewrite N0; reflexivity).
  apply part_ok, code_part; auto.
  - eapply named_parsed; eauto.
  - change (0 <= UI_fixed_items it). lia.
  - change (0 <= UI_runtime_items it). lia.
  - change (UI_fixed_items it + UI_runtime_items it = zlen (deed_lines (hash e) (expert e) w l)). lia.
  - lia.
  - intros h py Hp. unfold deploy_type_text. cbn [Deploy.payment Deploy.session]. rewrite Hp. fold it. rewrite N0. unfold deed_title. destruct (auction_deed l) as [[]|]; reflexivity.
  - fold it. intros i l0 Li Hi. assert (Li' : Z.of_nat i < UI_fixed_items it) by (rewrite <- LL; unfold zlen; lia).
    assert (X : expert e = true) by (destruct (expert e); [reflexivity|destruct i; discriminate Hi]).
    pose proof (fixed_fine it i w e o W A1 ltac:(lia) DT SS Li' (fun _ => LW X)) as D. unfold code_line in D. rewrite X in D. cbn [orb] in D.
    replace l0 with (nth i (code_review (hash e) w) (ln "?" (Words (text "?")))); [exact D|].
    unfold deed_lines in Hi. rewrite X in Hi. unfold code_review in *. destruct i as [|[|i]]; cbn [app nth_error nth] in *; [congruence|congruence|].
    destruct (auction_deed l); [destruct i; discriminate Hi|]. destruct i as [|i]; [|destruct i; discriminate Hi]. injection Hi as <-. reflexivity.
Qed.

(** * Code whose hash is shown: copied past the end of an array *)
Lemma long_part e o w l it0 ty :
  wf e -> Forall arg_ok l -> at_ e o (enc_session (Module w l)) ->
  parseDelegation (init_item 0) (zlen l) false e (args_start o w) = (Ret it0, args_start o w) ->
  2 <= UI_fixed_items it0 -> 0 <= UI_runtime_items it0 -> UI_fixed_items it0 + UI_runtime_items it0 <= 8 ->
  dtype it0 = ModuleBytes -> (exists op, dspecial it0 = special_of op) -> code_line e it0 = true -> 32 < zlen w ->
  let it := measured w l it0 in
  (forall h p, dspecial p = SystemPayment -> deploy_type_text (mkDeploy h p it 0) = ty) ->
  let lines := repeat filler (Z.to_nat (UI_fixed_items it) + Z.to_nat (UI_runtime_items it)) in
  sess_part 0 e o (Module w l) ty lines (it, 0) /\ (1 < List.length lines)%nat /\
  (forall i, (i < 1)%nat -> exists v o', session_item it 0 (Z.of_nat i) e o = (Ret v, o')) /\
  exists o', session_item it 0 (Z.of_nat 1) e o = (Undef OobWrite, o').
Proof.
  intros W F A PD N1 N2 N3 DT [op SP] CL LW it TY lines. destruct (code_pieces e o w l W A) as (A1 & RU & A3 & ZT & B).
  pose proof (zlen_nonneg w). pose proof (zlen_nonneg (enc_arg_list l)). unfold args_start in B.
  change (UI_fixed_items it0) with (UI_fixed_items it) in N1, N3. change (UI_runtime_items it0) with (UI_runtime_items it) in N2, N3.
  assert (SS : (dspecial it =? NativeTransfer) = false /\
    ((dspecial it =? Delegate) || (dspecial it =? UnDelegate) || (dspecial it =? ReDelegate) || (dspecial it =? Generic)) = true).
  { change (dspecial it) with (dspecial it0). rewrite SP. apply (sessions_shown (mkD 0 (special_of op) false 0 0 0 0)). apply special_cases. }
  assert (CL' : code_line e it = true) by exact CL.
  assert (LL : List.length lines = (Z.to_nat (UI_fixed_items it) + Z.to_nat (UI_runtime_items it))%nat) by (unfold lines; apply repeat_length).
  split; [|split; [|split]].
  - apply code_part; auto.
    + change (0 <= UI_fixed_items it). lia.
    + change (UI_fixed_items it + UI_runtime_items it = zlen lines). unfold zlen. lia.
    + unfold zlen. lia.
    + intros i l0 Q. lia.
  - lia.
  - intros i Li. rewrite (fixed_line it i e o) by (auto; lia). destruct i; [|lia]. rewrite CL'. do 2 eexists. reflexivity.
  - rewrite (fixed_line it 1 e o) by (auto; lia). rewrite CL'. destruct (code_over w e (o + 1) W A1 LW) as (o' & E). exists o'. exact E.
Qed.

(** * All of them *)
Lemma no_auction_parsed e o w l n post :
  wf e -> wasm e = false -> Forall arg_ok l -> at_ e o (enc_session (Module w l) ++ le 4 n ++ post) -> tail_ok n post ->
  has "auction" l = false -> session_refusal (Module w l) = None -> sound l -> plain_types l = true ->
  parseDelegation (init_item 0) (zlen l) false e (args_start o w) = (Ret (module_item (expert e) l (args_start o w) 0), args_start o w).
Proof.
  intros W NW F A TK HA NR SO PT. apply at_app in A. destruct A as [A AT]. destruct (code_pieces e o w l W A) as (A1 & RU & A3 & ZT & B).
  pose proof (zlen_nonneg w). pose proof (zlen_nonneg (enc_arg_list l)). unfold args_start in B. apply refusal_none in NR. destruct NR as [_ TN].
  destruct (generic_shown l SO PT) as [rl Rr]. apply (module_op l rl e _ n post W NW F A3); auto.
  - rewrite ZT in AT. replace (args_start o w + zlen (enc_arg_list l)) with (o + (1 + (4 + zlen w + (4 + zlen (enc_arg_list l))))) by (unfold args_start; lia). exact AT.
  - unfold args_start. lia.
  - split; [exact PT|]. assert (AN : auction_op l = None) by (unfold has in HA; unfold auction_op; destruct (find_arg (text "auction") l); [discriminate|reflexivity]).
    rewrite AN. auto.
Qed.
(** What is read of code. *)
Definition code_item (x : bool) (l : list arg) (s : Z) : ditem := if has "auction" l then named_item x l s else module_item x l s 0.

Lemma sealed_data pf h p i r : enc_header h ++ p_hash pf (enc_header h) ++ enc_payment p ++ enc_session i ++ r = enc_signed (SR.sealed (p_hash pf) h p i) ++ r.
Proof. unfold enc_signed, SR.sealed, enc_body. cbn [d_header d_hash d_payment d_session]. rewrite <- !app_assoc. reflexivity. Qed.
Lemma sealed_frame pf h p i : hash32 (p_hash pf) -> good_header h -> S.len (p_amount p) <= 64 -> h_bodyhash h = p_hash pf (enc_payment p ++ enc_session i) ->
  frame (p_hash pf) (SR.sealed (p_hash pf) h p i).
Proof. intros Hh G P B. constructor; cbn [SR.sealed d_header d_hash d_payment d_session]; auto. apply Hh. Qed.
Lemma session_place e h p i H n r : frame_at e (SR.sealed H h p i) n r -> at_ e (hlen (SR.sealed H h p i) + 32 + plen (SR.sealed H h p i)) (enc_session i ++ r).
Proof. intros D. apply (proj2 (proj2 (proj2 (proj2 (frame_pieces _ _ _ _ D))))). Qed.

Lemma long_verdict pf x h p i n r :
  hash32 (p_hash pf) -> good_header h -> S.len (p_amount p) <= 64 -> fit i -> plain_code i -> SR.trailing x i n r ->
  h_bodyhash h = p_hash pf (enc_payment p ++ enc_session i) -> expert_ok x (p_time pf) h ->
  let data := enc_header h ++ p_hash pf (enc_header h) ++ enc_payment p ++ enc_session i ++ r in
  bytes data -> S.len data < 65535 ->
  session_refusal i = None -> sound (args_of i) -> ~ short_code x i -> tx_parse pf x (0 :: data) = Undef OobWrite.
Proof.
  intros Hh G P FI PC T B X data By L R SO SC. unfold data in *. rewrite sealed_data in *.
  pose proof (sealed_frame pf h p i Hh G P B) as FR. set (d := SR.sealed (p_hash pf) h p i) in *.
  pose proof (fit_args _ FI) as GAr. destruct i as [w l|t ep l|l]; cbn [short_code args_of] in *; [|tauto|tauto].
  assert (SW : shows_code x (Module w l) = true /\ 32 < zlen w).
  { change (S.len w) with (zlen w) in SC. destruct (shows_code x (Module w l)); [|exfalso; apply SC; discriminate]. split; [reflexivity|].
    destruct (Z_lt_le_dec 32 (zlen w)); [assumption|exfalso; apply SC; auto]. }
  destruct SW as [SW LW]. destruct (fo_module _ _ _ _ (trailing_follows x (p_hash pf) h p (Module w l) n r T) w l eq_refl) as (post & Er & TK).
  set (o := hlen d + 32 + plen d). set (it := measured w l (code_item x l (args_start o w))).
  set (ty := deploy_type_text (mkDeploy (mkHeader 0 0 0) (mkD 0 SystemPayment false 0 0 0 0) it 0)).
  apply (any_lost pf x d n r ty (repeat filler (Z.to_nat (UI_fixed_items it) + Z.to_nat (UI_runtime_items it))) (it, 0) 1 (inr OobWrite)); auto.
  - apply trailing_follows, T.
  - intros e D Xe _. cbv zeta. fold o. cbn [fst snd ends]. change (d_session d) with (Module w l).
    pose proof (session_place _ _ _ _ _ _ _ D) as A. fold d o in A. rewrite Er in A. pose proof A as A'. apply at_app in A'. destruct A' as [A' _].
    assert (PD : parseDelegation (init_item 0) (zlen l) false e (args_start o w) = (Ret (code_item x l (args_start o w)), args_start o w)).
    { unfold code_item. rewrite <- Xe. cbn [shows_code] in SW. destruct (has "auction" l) eqn:HA.
      - destruct (code_pieces e o w l (fa_wf _ _ _ _ D) A') as (_ & _ & A3 & _). eapply named_parsed; eauto. apply (fa_wf _ _ _ _ D).
      - eapply no_auction_parsed; eauto; [apply (fa_wf _ _ _ _ D)|apply (fa_nw _ _ _ _ D)]. }
    assert (FX : 2 <= UI_fixed_items (code_item x l (args_start o w)) <= 3 /\ 0 <= UI_runtime_items (code_item x l (args_start o w)) <= 4 /\
      dtype (code_item x l (args_start o w)) = ModuleBytes /\ (exists op, dspecial (code_item x l (args_start o w)) = special_of op) /\ code_line e (code_item x l (args_start o w)) = true).
    { unfold code_line. rewrite Xe. unfold code_item. cbn [shows_code] in SW. destruct (has "auction" l) eqn:HA.
      - unfold named_item. destruct (plain_types l), (auction_deed l) as [op|], x; cbn [orb andb negb] in *; try discriminate SW;
          try destruct (has_delegation_args l); try destruct (has "new_validator" l); try destruct (has "amount" l); dcbn; repeat split; try lia; eauto.
      - unfold module_item. assert (AN : auction_op l = None) by (unfold has in HA; unfold auction_op; destruct (find_arg (text "auction") l); [discriminate|reflexivity]).
        rewrite AN. destruct (has "amount" l); dcbn; repeat split; try lia; try (exists None; reflexivity); destruct x; reflexivity. }
    destruct FX as (F1 & F2 & F3 & F4 & F5).
    apply (long_part e o w l (code_item x l (args_start o w)) ty); auto; try lia; [apply (fa_wf _ _ _ _ D)|].
    intros h0 p0 Hp. unfold ty, deploy_type_text. cbn [Deploy.payment Deploy.session]. rewrite Hp. reflexivity.
Qed.
(** Code that names an operation all of whose arguments come first. *)
Lemma op_named e o w l op r :
  wf e -> Forall arg_ok l -> at_ e o (enc_session (Module w l)) -> plain_code (Module w l) -> has "auction" l = true -> session_refusal (Module w l) = None ->
  plain_types l = true -> auction_deed l = Some op -> has_delegation_args l = true -> (expert e = true -> zlen w <= 32) ->
  let k := firstn (reach_of l) l in Z.of_nat (reach_of l) = op_args op -> zlen k = op_args op -> delegation_review op k = Some r ->
  sess_ok e o (Module w l) (op_text op) ((if expert e then code_review (hash e) w else []) ++ r) (measured w l (named_item (expert e) l (args_start o w)), 0).
Proof.
  intros W F A PC HA NR PT DE HD LW k RO ZK DR. set (it := measured w l (named_item (expert e) l (args_start o w))).
  destruct (code_pieces e o w l W A) as (A1 & RU & A3 & ZT & B).
  pose proof (zlen_nonneg w). pose proof (zlen_nonneg (enc_arg_list l)). unfold args_start in B.
  set (s := args_start o w) in *. assert (SV : s = o + 1 + (4 + zlen w) + 4) by reflexivity.
  assert (N0 : it = mkD 0 (special_of (Some op)) false (if expert e then 2 else 0) (op_args op) (1 + (4 + zlen w + (4 + zlen (enc_arg_list l)))) s).
  { unfold it, named_item, measured. rewrite PT, DE, HD. cbn [negb andb]. rewrite <- RO. unfold reach_of. destruct (has "new_validator" l); reflexivity. }
  assert (SP : dspecial it = special_of (Some op)) by (rewrite N0; reflexivity).
  assert (DT : dtype it = ModuleBytes) by (rewrite N0; reflexivity).
  assert (DG : dgeneric it = false) by (rewrite N0; reflexivity).
  assert (IO : itemOffset it = s) by (rewrite N0; reflexivity).
  assert (RT : UI_runtime_items it = op_args op) by (rewrite N0; reflexivity).
  assert (SS : (dspecial it =? NativeTransfer) = false /\
    ((dspecial it =? Delegate) || (dspecial it =? UnDelegate) || (dspecial it =? ReDelegate) || (dspecial it =? Generic)) = true)
    by (apply sessions_shown; rewrite SP; apply special_cases).
  set (fx := if expert e then code_review (hash e) w else []).
  assert (LF : Z.of_nat (List.length fx) = UI_fixed_items it) by (rewrite N0; unfold fx; dcbn; destruct (expert e); reflexivity).
  assert (LR : zlen r = op_args op) by (apply (op_lines _ _ _ DR)).
  assert (NF : 0 <= UI_fixed_items it <= 2) by (rewrite N0; dcbn; destruct (expert e); lia).
  assert (OA : 3 <= op_args op <= 4) by (destruct op; cbn; lia).
  assert (LL : zlen (fx ++ r) = UI_fixed_items it + op_args op) by (rewrite zlen_app; unfold zlen in *; lia).
  apply part_ok, code_part; auto.
  - eapply named_parsed; eauto.
  - change (0 <= UI_fixed_items it). lia.
  - change (0 <= UI_runtime_items it). lia.
  - change (UI_fixed_items it + UI_runtime_items it = zlen (fx ++ r)). lia.
  - lia.
  - intros h py Hp. unfold deploy_type_text. cbn [Deploy.payment Deploy.session]. rewrite Hp. fold it. rewrite SP, DG, DT. destruct op; reflexivity.
  - fold it. intros i l0 Li Hi. apply nth_app in Hi. destruct Hi as [[Li' Hi]|[Li' Hi]].
    + assert (X : expert e = true) by (unfold fx in Hi; destruct (expert e); [reflexivity|destruct i; discriminate Hi]).
      pose proof (fixed_fine it i w e o W A1 ltac:(lia) DT SS ltac:(lia) (fun _ => LW X)) as D. unfold code_line in D. rewrite X in D. cbn [orb] in D.
      unfold fx in Hi. rewrite X in Hi. rewrite (nth_error_nth _ _ _ Hi) in D. exact D.
    + pose proof (nth_cases _ _ _ Hi) as Lj. unfold displays, session_item. destruct SS as [-> ->]. unfold getItem_Delegation. rewrite step_advance by lia.
      replace (Z.of_nat i <? UI_fixed_items it) with false by lia. unfold zlen in LR. rewrite step_set_off by lia. rewrite u8_small by lia. rewrite step_check by lia.
      rewrite DG, DT. change (ModuleBytes =? ModuleBytes) with true. cbv iota. rewrite step_ret, IO, RT, <- ZK.
      replace (Z.of_nat i - UI_fixed_items it) with (Z.of_nat (i - List.length fx)) by lia.
      apply (op_items op k r it e s _ l0 W); auto.
      * apply Forall_forall. intros a Ha. rewrite Forall_forall in F. apply F. rewrite <- (firstn_skipn (reach_of l) l). apply in_or_app; auto.
      * apply at_firstn; auto.
Qed.

Lemma deed_op l op : auction_refusal l = None -> plain_code (Module [] l) -> auction_op l = Some op ->
  auction_deed l = Some op /\ Z.of_nat (reach_of l) = op_args op.
Proof.
  intros AR PC AO. rewrite (auction_is l AR PC) in AO. destruct (auction_deed l) as [op'|]; [|discriminate].
  destruct (Bool.eqb (is_redelegate (Some op')) (has "new_validator" l)) eqn:E; [|discriminate]. injection AO as ->. split; [reflexivity|].
  apply Bool.eqb_prop in E. unfold reach_of. rewrite <- E. destruct op; reflexivity.
Qed.

(** Code with an argument auction. *)
Lemma named_verdict pf x h p w l n r : let i := Module w l in
  hash32 (p_hash pf) -> good_header h -> S.len (p_amount p) <= 64 -> fit i -> plain_code i -> SR.trailing x i n r ->
  h_bodyhash h = p_hash pf (enc_payment p ++ enc_session i) -> expert_ok x (p_time pf) h ->
  let data := enc_header h ++ p_hash pf (enc_header h) ++ enc_payment p ++ enc_session i ++ r in
  bytes data -> S.len data < 65535 ->
  session_refusal i = None -> sound l -> has "auction" l = true -> short_code x i -> (misread i = true -> legible l) ->
  (gathered i /\ exists lines, reviews pf x (0 :: data) lines) \/
  (~ gathered i /\ tx_parse pf x (0 :: data) = Fail (if misread i then parser_unexpected_buffer_end else parser_no_data)).
Proof.
  intros i Hh G P FI PC T B X data By L R SO HA SC LG. unfold data in *. rewrite sealed_data in *.
  pose proof (sealed_frame pf h p i Hh G P B) as FR. set (d := SR.sealed (p_hash pf) h p i) in *. set (o := hlen d + 32 + plen d).
  pose proof (fit_args _ FI) as F. cbn [i args_of] in F. pose proof (trailing_follows x (p_hash pf) h p i n r T) as TF.
  pose proof (refusal_none _ _ R) as [AR TN].
  assert (AT : forall e, frame_at e d n r -> at_ e o (enc_session (Module w l))) by (intros e D; pose proof (session_place _ _ _ _ _ _ _ D) as A; apply at_app in A; apply A).
  assert (NO : forall e, frame_at e d n r -> wf e) by (intros e D; apply (fa_wf _ _ _ _ D)).
  cbn [i short_code] in SC. change (S.len w) with (zlen w) in SC.
  destruct (plain_types l) eqn:PT.
  2: { left. split; [intros _ Q; congruence|]. eexists.
    apply (any_review pf x d n r (deed_title l) (deed_lines (p_hash pf) x w l) (measured w l (named_item x l (args_start o w)), 0)); auto.
    intros e D <- <-. apply blind_named; auto. intros Q. apply SC. unfold i. cbn [shows_code]. rewrite HA, Q. reflexivity. }
  destruct (misread i) eqn:MR.
  - right. split.
    { intros Q. destruct (Q HA PT) as (op & AO & EA & _). destruct (deed_op l op AR PC AO) as [DE _]. cbn [i misread] in MR. rewrite HA, PT, DE in MR. cbn [andb] in MR.
      assert (HD : has_delegation_args l = true); [|rewrite HD in MR; discriminate].
      unfold has_delegation_args in *. rewrite !andb_true_iff in *. destruct EA as [[E1 E2] E3].
      assert (Y : forall nm, has nm (firstn (Z.to_nat (op_args op)) l) = true -> has nm l = true).
      { intros nm. unfold has. destruct (find_arg (text nm) (firstn (Z.to_nat (op_args op)) l)) eqn:E; [|discriminate]. apply find_firstn in E. rewrite E. auto. }
      auto. }
    set (it := measured w l (named_item x l (args_start o w))).
    apply (any_lost pf x d n r "Contract execution" (repeat filler (Z.to_nat (UI_fixed_items it) + Z.to_nat (UI_runtime_items it))) (it, 0) (Z.to_nat (UI_fixed_items it)) (inl parser_unexpected_buffer_end)); auto.
    intros e D Xe _. unfold it. rewrite <- Xe. fold o. apply misread_named; auto. rewrite Xe. exact SC.
  - assert (DD : exists op, auction_deed l = Some op /\ has_delegation_args l = true).
    { cbn [i misread] in MR. rewrite HA, PT in MR. cbn [andb] in MR. destruct (auction_deed l) as [op|]; [|discriminate]. exists op. split; [reflexivity|]. destruct (has_delegation_args l); [reflexivity|discriminate]. }
    destruct DD as (op & DE & HD).
    assert (LW : x = true -> zlen w <= 32) by (intros ->; apply SC; unfold i; cbn [shows_code]; rewrite HA; reflexivity).
    assert (DC : (auction_op l = Some op /\ early op l) \/ ~ (auction_op l = Some op /\ early op l)).
    { rewrite (auction_is l AR PC), DE. destruct (Bool.eqb (is_redelegate (Some op)) (has "new_validator" l)); [|right; intros [Q _]; discriminate].
      destruct (early_dec op l); [left; auto|right; tauto]. }
    destruct DC as [[AO EA]|NE].
    + left. split; [intros _ _; eauto|]. destruct (deed_op l op AR PC AO) as [_ RO].
      destruct (early_shown op l SO PT EA ltac:(auto)) as (LK & _ & _ & rl & Rr).
      assert (RO' : Z.to_nat (op_args op) = reach_of l) by lia. rewrite RO' in *. eexists.
      apply (any_review pf x d n r (op_text op) ((if x then code_review (p_hash pf) w else []) ++ rl) (measured w l (named_item x l (args_start o w)), 0)); auto.
      intros e D <- <-. apply op_named; auto.
    + right. split.
      { intros Q. destruct (Q HA PT) as (op' & AO & EA). destruct (deed_op l op' AR PC AO) as [DE' _]. rewrite DE in DE'. injection DE' as <-. apply NE. auto. }
      destruct (lost_place l op AR PC DE NE) as (j & J1 & J2 & J3).
      set (it := measured w l (named_item x l (args_start o w))).
      apply (any_lost pf x d n r (op_text op) (repeat filler (Z.to_nat (UI_fixed_items it) + reach_of l)) (it, 0) (Z.to_nat (UI_fixed_items it) + j) (inl parser_no_data)); auto.
      intros e D Xe _. unfold it. rewrite <- Xe. fold o. apply lost_named; auto. rewrite Xe. exact LW.
Qed.

(** Of the deploys that are refused for no other reason, those are accepted of
    which the arguments are gathered and the code is short. *)
Lemma verdict_exact pf x h p i n r :
  hash32 (p_hash pf) -> good_header h -> S.len (p_amount p) <= 64 -> fit i -> plain_code i -> SR.trailing x i n r ->
  h_bodyhash h = p_hash pf (enc_payment p ++ enc_session i) -> expert_ok x (p_time pf) h ->
  let data := enc_header h ++ p_hash pf (enc_header h) ++ enc_payment p ++ enc_session i ++ r in
  bytes data -> S.len data < 65535 -> session_refusal i = None -> sound (args_of i) -> (misread i = true -> legible (args_of i)) ->
  (short_code x i /\ gathered i /\ exists lines, reviews pf x (0 :: data) lines) \/
  (short_code x i /\ ~ gathered i /\ tx_parse pf x (0 :: data) = Fail (if misread i then parser_unexpected_buffer_end else parser_no_data)) \/
  (~ short_code x i /\ tx_parse pf x (0 :: data) = Undef OobWrite).
Proof.
  intros Hh G P FI PC T B X data By L R SO LG.
  assert (S0 : short_code x i \/ ~ short_code x i).
  { destruct i as [w l|t ep l|l]; cbn [short_code]; auto. destruct (shows_code x (Module w l)); [|left; discriminate].
    destruct (Z_lt_le_dec 32 (S.len w)); [right; intros Q; specialize (Q eq_refl); lia|left; auto]. }
  destruct S0 as [SC|SC]; [|right; right; split; auto; eapply long_verdict; eauto].
  destruct i as [w l|t ep l|l]; cbn [args_of] in *.
  - destruct (has "auction" l) eqn:HA.
    + destruct (named_verdict pf x h p w l n r) as [[Q1 Q2]|[Q1 Q2]]; auto.
    + left. split; [exact SC|]. split; [intros Q; congruence|]. eapply tight_verdict; eauto.
      * intros Q. congruence.
      * intros o AO. exfalso. unfold has in HA. unfold auction_op in AO. destruct (find_arg (text "auction") l); discriminate.
      * cbn [tight short_code shows_code] in *. rewrite HA in SC. exact SC.
  - destruct (stored_dec t ep l) as [GA|(GA & op & PT & OP & NE)]; [left|right; left]; (split; [exact SC|]); (split; [exact GA|]).
    + eapply tight_verdict; eauto; exact I.
    + cbn [misread]. eapply stored_lost; eauto.
  - left. split; [exact SC|]. split; [exact I|]. eapply tight_verdict; eauto; exact I.
Qed.
Lemma accepted_verdict pf x h p i n r :
  hash32 (p_hash pf) -> good_header h -> S.len (p_amount p) <= 64 -> fit i -> plain_code i -> SR.trailing x i n r ->
  h_bodyhash h = p_hash pf (enc_payment p ++ enc_session i) -> expert_ok x (p_time pf) h ->
  let data := enc_header h ++ p_hash pf (enc_header h) ++ enc_payment p ++ enc_session i ++ r in
  bytes data -> S.len data < 65535 ->
  session_refusal i = None -> sound (args_of i) -> gathered i -> short_code x i -> exists lines, reviews pf x (0 :: data) lines.
Proof.
  intros Hh G P FI PC T B X data By L R SO GA SC.
  destruct (verdict_exact pf x h p i n r) as [(_ & _ & Q)|[(_ & Q & _)|(Q & _)]]; auto; try contradiction.
  intros MR. exfalso. destruct i as [w l|t ep l|l]; try discriminate MR. cbn [misread] in MR. rewrite !andb_true_iff in MR. destruct MR as [[HA PT] MR].
  destruct (GA HA PT) as (op & AO & EA & _). destruct (deed_op l op (proj1 (refusal_none _ _ R)) PC AO) as [DE _]. rewrite DE in MR.
  assert (HD : has_delegation_args l = true); [|rewrite HD in MR; discriminate].
  unfold has_delegation_args in *. rewrite !andb_true_iff in *. destruct EA as [[E1 E2] E3].
  assert (Y : forall nm, has nm (firstn (Z.to_nat (op_args op)) l) = true -> has nm l = true).
  { intros nm. unfold has. destruct (find_arg (text nm) (firstn (Z.to_nat (op_args op)) l)) eqn:E; [|discriminate]. apply find_firstn in E. rewrite E. auto. }
  auto.
Qed.
Lemma lost_verdict pf x h p i n r :
  hash32 (p_hash pf) -> good_header h -> S.len (p_amount p) <= 64 -> fit i -> plain_code i -> SR.trailing x i n r ->
  h_bodyhash h = p_hash pf (enc_payment p ++ enc_session i) -> expert_ok x (p_time pf) h ->
  let data := enc_header h ++ p_hash pf (enc_header h) ++ enc_payment p ++ enc_session i ++ r in
  bytes data -> S.len data < 65535 -> session_refusal i = None -> sound (args_of i) -> (misread i = true -> legible (args_of i)) ->
  short_code x i -> ~ gathered i -> tx_parse pf x (0 :: data) = Fail (if misread i then parser_unexpected_buffer_end else parser_no_data).
Proof.
  intros Hh G P FI PC T B X data By L R SO LG SC GA.
  destruct (verdict_exact pf x h p i n r) as [(_ & Q & _)|[(_ & _ & Q)|(Q & _)]]; auto; contradiction.
Qed.
Lemma deed_review pf x h p w l n r :
  hash32 (p_hash pf) -> good_header h -> S.len (p_amount p) <= 64 -> fit (Module w l) -> plain_code (Module w l) ->
  h_bodyhash h = p_hash pf (enc_payment p ++ enc_session (Module w l)) -> SR.trailing x (Module w l) n r ->
  let data := enc_header h ++ p_hash pf (enc_header h) ++ enc_payment p ++ enc_session (Module w l) ++ r in
  bytes data -> zlen data < 65535 -> has "auction" l = true -> ill_typed l -> session_refusal (Module w l) = None ->
  (x = true -> zlen w <= 32) -> expert_ok x (p_time pf) h ->
  reviews pf x (0 :: data) (SB.entitled x (SR.sealed (p_hash pf) h p (Module w l)) (deed_title l) n (deed_lines (p_hash pf) x w l)).
Proof.
  intros Hh G P FI PC B T data By L HA PT R LW X. unfold data in *. rewrite sealed_data in *.
  pose proof (sealed_frame pf h p (Module w l) Hh G P B) as FR. set (d := SR.sealed (p_hash pf) h p (Module w l)) in *. set (o := hlen d + 32 + plen d).
  pose proof (fit_args _ FI) as F. cbn [args_of] in F. pose proof (trailing_follows x (p_hash pf) h p (Module w l) n r T) as TF.
  apply (any_review pf x d n r (deed_title l) (deed_lines (p_hash pf) x w l) (measured w l (named_item x l (args_start o w)), 0)); auto.
  intros e D <- <-. apply blind_named; auto; [apply (fa_wf _ _ _ _ D)|pose proof (session_place _ _ _ _ _ _ _ D) as A; apply at_app in A; apply A].
Qed.
Lemma signed_deed pf x h p w l n r : let i := Module w l in
  hash32 (p_hash pf) -> good_header h -> S.len (p_amount p) <= 64 -> fit i -> plain_code i -> SR.trailing x i n r ->
  bytes (enc_header h) -> bytes (enc_payment p) -> bytes (enc_session i) -> bytes r ->
  zlen (enc_header h) + 32 + zlen (enc_payment p) + zlen (enc_session i) + zlen r < 65535 ->
  has "auction" l = true -> ill_typed l -> session_refusal i = None -> (x = true -> zlen w <= 32) -> expert_ok x (p_time pf) h ->
  reviews pf x (0 :: signed (p_hash pf) h p i r)
    (ln "Txn hash" (Hex (signed_hash (p_hash pf) h p i)) :: blank x h p (deed_title l) n (deed_lines (p_hash pf) x w l)).
Proof.
  intros i Hh G P F PC T Bh Bp Bi Br L HA IL R LW X. rewrite <- entitled_blank. unfold signed.
  set (b := p_hash pf (enc_payment p ++ enc_session i)). destruct (Hh (enc_payment p ++ enc_session i)) as [Lb Bb]. fold b in Lb, Bb.
  assert (E : forall c, enc_header (over h c) = ([h_alg h] ++ h_key h ++ le 8 (h_time h) ++ le 8 (h_ttl h) ++ le 8 (h_gas h)) ++ c ++ (le 4 (S.len (h_deps h)) ++ List.concat (h_deps h) ++ lv (h_chain h))).
  { intros c. unfold enc_header, over. cbn [h_alg h_key h_time h_ttl h_gas h_bodyhash h_deps h_chain]. rewrite <- !app_assoc. reflexivity. }
  assert (E0 : enc_header h = enc_header (over h (h_bodyhash h))) by (destruct h; reflexivity).
  rewrite E0, E in Bh, L. rewrite !zlen_app in L. apply bytes_app in Bh. destruct Bh as [B1 Bh]. apply bytes_app in Bh. destruct Bh as [_ B2].
  pose proof (gh_bodyhash _ G) as LB. change (S.len (h_bodyhash h)) with (zlen (h_bodyhash h)) in LB.
  assert (BH : bytes (enc_header (over h b))) by (rewrite E; apply bytes_app; split; [exact B1|]; apply bytes_app; split; [exact Bb|exact B2]).
  assert (LH : zlen (enc_header (over h b)) = zlen (enc_header h)) by (rewrite E0, !E, !zlen_app, Lb, LB; reflexivity).
  destruct (Hh (enc_header (over h b))) as [L2 B3].
  apply deed_review; auto.
  - destruct G. constructor; cbn [over h_alg h_key h_time h_ttl h_gas h_bodyhash h_deps h_chain]; auto.
  - repeat (apply bytes_app; split; auto).
  - change (SD.Module w l) with i. rewrite !zlen_app. rewrite LH, L2, E0, E, !zlen_app. lia.
Qed.
