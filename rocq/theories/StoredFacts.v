(** Stored-contract and module-bytes sessions. *)
From Verif Require Import Base Zxlib Crypto Utils RuntimeArg Deploy DeployUI BaseFacts Spec SpecText SpecDeploy Exec ArgsFacts ReaderFacts TextFacts Shows DeployArgs SessionFacts DelegationFacts.
Import S ST SD.

Definition special_of (op : option operation) : Z :=
  match op with Some ODelegate => Delegate | Some OUndelegate => UnDelegate | Some ORedelegate => ReDelegate | None => Generic end.
Definition is_redelegate (op : option operation) : bool := match op with Some ORedelegate => true | _ => false end.

Ltac leq := repeat match goal with |- context [list_eq_dec Z.eq_dec ?a ?b] => destruct (list_eq_dec Z.eq_dec a b) end.

Lemma special_names ep :
  (if list_eqb ep (str "delegate") then Delegate
   else if list_eqb ep (str "undelegate") then UnDelegate
   else if list_eqb ep (str "redelegate") then ReDelegate else Generic) = special_of (operation_of ep)
  /\ list_eqb ep (str "redelegate") = is_redelegate (operation_of ep).
Proof.
  unfold operation_of. change (text "delegate") with (str "delegate"). change (text "undelegate") with (str "undelegate").
  change (text "redelegate") with (str "redelegate").
  destruct (list_eq_dec Z.eq_dec ep (str "delegate")) as [->|N1]; [split; reflexivity|].
  destruct (list_eq_dec Z.eq_dec ep (str "undelegate")) as [->|N2]; [split; reflexivity|].
  destruct (list_eq_dec Z.eq_dec ep (str "redelegate")) as [->|N3]; [split; reflexivity|].
  apply list_eqb_neq in N1, N2, N3. rewrite N1, N2, N3. split; reflexivity.
Qed.

(** * The items of the arguments *)
Definition op_item (j : ditem) (new m : Z) : P item :=
  if new =? 0 then show_arg (str "Delegator") (str "delegator") m
  else if dspecial j =? ReDelegate then
    if new =? 1 then show_arg (str "Old") (str "validator") m
    else if new =? 2 then show_arg (str "New") (str "new_validator") m
    else if new =? 3 then show_motes (str "Amount") (str "amount") m
    else fail parser_no_data
  else
    if new =? 1 then show_arg (str "Validator") (str "validator") m
    else if new =? 2 then show_motes (str "Amount") (str "amount") m
    else fail parser_no_data.

Lemma op_items op l lines j e o i ln0 :
  wf e -> Forall arg_ok l -> at_ e o (enc_arg_list l) ->
  delegation_review op l = Some lines -> dspecial j = special_of (Some op) ->
  nth_error lines i = Some ln0 ->
  displays (op_item j (Z.of_nat i) (zlen l)) e o ln0.
Proof.
  intros W F A R Sp Hi. unfold op_item. rewrite Sp. unfold delegation_review, key_arg in R.
  destruct op; cbn [special_of]; all_inv R; nth_split Hi; ground_eqb;
    solve [ eapply show_arg_at; eassumption | eapply show_motes_at; eassumption ].
Qed.
Lemma op_lines op l lines : delegation_review op l = Some lines -> zlen lines = op_args op.
Proof. unfold delegation_review. destruct op; intros R; all_inv R; reflexivity. Qed.
Lemma op_typed op l lines : delegation_review op l = Some lines ->
  typed_ok is_amount_type "amount" l /\ typed_ok is_key_type "delegator" l /\ typed_ok is_key_type "validator" l
  /\ (op = ORedelegate -> typed_ok is_key_type "new_validator" l).
Proof.
  unfold delegation_review, key_arg. destruct op; intros R; all_inv R; repeat split;
    try (eapply want_typed; eassumption); try discriminate; intros _; eapply want_typed; eassumption.
Qed.
Lemma op_enough op l lines : delegation_review op l = Some lines -> op_args op <= zlen l.
Proof.
  intros R. apply op_typed in R. destruct R as ((a1 & E1 & _) & (a2 & E2 & _) & (a3 & E3 & _) & E4).
  destruct op; cbn [op_args].
  1, 2: change 3 with (zlen [text "amount"; text "delegator"; text "validator"]); apply names_count;
    [repeat constructor; cbn; intuition discriminate | repeat constructor; congruence].
  destruct (E4 eq_refl) as (a4 & E5 & _).
  change 4 with (zlen [text "amount"; text "delegator"; text "validator"; text "new_validator"]); apply names_count;
    [repeat constructor; cbn; intuition discriminate | repeat constructor; congruence].
Qed.

(** Generic arguments, from the count. *)
Definition generic_item (j : ditem) (new : Z) : P item :=
  n <- readU32 ;;
  let m := UI_runtime_items j in
  if (new =? 0) && (m =? 2) then show_motes (str "Amount") (str "amount") n
  else
    let new := if (new =? 1) && (m =? 2) then 0 else new in
    if new =? 0 then args_hash (itemOffset j) n (str "execution")
    else fail parser_no_data.

Lemma generic_lines l lines : generic_args_review l = Some lines -> zlen lines = if has "amount" l then 2 else 1.
Proof.
  unfold generic_args_review. destruct (has "amount" l); intros R; [all_inv R | inversion R]; reflexivity.
Qed.

Lemma generic_items l lines j e i ln0 :
  wf e -> Forall arg_ok l -> at_ e (itemOffset j) (enc_args l) ->
  generic_args_review l = Some lines ->
  UI_runtime_items j = (if has "amount" l then 2 else 1) ->
  nth_error lines i = Some ln0 ->
  displays (generic_item j (Z.of_nat i)) e (itemOffset j) ln0.
Proof.
  intros W F A R RT Hi. destruct (at_args _ _ _ W A) as (RU & A1 & ZL).
  unfold displays, generic_item. step RU. rewrite RT.
  destruct (args_hash_at "execution" l e (itemOffset j) W F A ltac:(cbn; lia) ltac:(cbn; lia)) as (it & H1 & H2).
  unfold generic_args_review in R. destruct (has "amount" l) eqn:HA.
  - apply all_cons in R; destruct R as (ln1 & s1 & V1 & R & ->).
    apply all_cons in R; destruct R as (ln2 & s2 & V2 & R & ->). apply all_nil in R; subst s2. injection V2 as <-.
    nth_split Hi; ground_eqb.
    + eapply show_motes_at; eassumption.
    + exists it; eauto.
  - injection R as <-. nth_split Hi; ground_eqb. exists it; eauto.
Qed.

(** * The fixed items *)
Definition ttype (t : target) : Z :=
  match t with ByHash _ => 1 | ByName _ => 2 | ByHashV _ _ => 3 | ByNameV _ _ => 4 end.
Definition tbody (t : target) : list Z := tl (enc_target t).
Lemma enc_target_cons t : enc_target t = ttype t :: tbody t.
Proof. destruct t; reflexivity. Qed.

Lemma version_at v e o : wf e -> good_ver v -> at_ e o (enc_ver v) ->
  parse_version e o = (Ret (version_of v), o + zlen (enc_ver v)).
Proof.
  intros W G A. unfold parse_version. destruct v as [n|]; cbn [enc_ver version_of] in *.
  - change (1 :: le 4 n) with ([1] ++ le 4 n) in A. apply at_app in A; destruct A as [A1 A2].
    step (readU8_at 1 e o W A1). ground_eqb.
    change (zlen [1]) with 1 in A2. rewrite (readU32_at n _ _ W A2) by (cbn in G; lia). rewrite zlen_cons, le_length. pr.
  - step (readU8_at 0 e o W A). ground_eqb. reflexivity.
Qed.

Lemma entry_at ep e p o : wf e -> at_ e p (lv ep) -> zlen ep <= 99 -> ~ In 0 ep -> 0 <= o < 65536 ->
  displays (render_entry_point p) e o (ln "Entry-point" (Text ep)).
Proof.
  intros W A L N O. pose proof (at_bound _ _ _ W A) as B. pose proof (zlen_nonneg (lv ep)).
  exists (mkItem (str "Entry-point") (VPaged ep)), o. split; [|split; reflexivity].
  unfold render_entry_point. rewrite step_get_off, step_set_off by lia.
  step (copy_item_at 100 ep e p W A ltac:(lia)). rewrite step_set_off by lia.
  unfold c_text. replace (zlen ep <? 100) with true by lia. rewrite orb_true_r, step_lift, cstr_id by auto.
  reflexivity.
Qed.

Lemma name_at n e o : wf e -> at_ e o (lv n) -> good_name 299 n ->
  displays render_name e o (ln "Name" (Text n)).
Proof.
  intros W A [L N]. change (S.len n) with (zlen n) in L.
  exists (mkItem (str "Name") (VPaged n)), (o + zlen (lv n)). split; [|split; reflexivity].
  unfold render_name. step (copy_item_at 300 n e o W A ltac:(lia)).
  unfold c_text. replace (zlen n <? 300) with true by lia. rewrite orb_true_r, step_lift, cstr_id by auto.
  reflexivity.
Qed.
Lemma address_at h e o : wf e -> at_ e o h -> zlen h = 32 ->
  displays render_address e o (ln "Address" (Hex h)).
Proof.
  intros W A L. exists (mkItem (str "Address") (VPaged (cep57 (hash e h) h))), o. split; [|split; reflexivity].
  unfold render_address. rewrite step_get_off.
  rewrite (bind_Ret _ _ _ _ _ _ (parser_printBytes_at h e o 32 o W A (eq_sym L) ltac:(lia))). reflexivity.
Qed.
Lemma execution_at k e o : displays (ret (execution k)) e o (ln "Execution" (Words (text k))).
Proof. exists (execution k), o. split; [reflexivity | split; reflexivity]. Qed.
Lemma number_item lab v e o : 0 <= v -> displays (ret (mkItem (str lab) (printUInt v))) e o (ln lab (Number v)).
Proof.
  intros H. eexists _, o. split; [reflexivity|]. split; [reflexivity|]. exists (dec v); split; [apply dec_decimal; auto | reflexivity].
Qed.
Lemma version_nonneg v : good_ver v -> 0 <= version_of v.
Proof. destruct v; cbn; lia. Qed.

Lemma fixed_items t ep j e o p i ln0 :
  wf e -> good_target t -> good_name 99 ep -> at_ e o (tbody t ++ lv ep) ->
  dtype j = ttype t -> (expert e = true \/ UI_fixed_items j <> 3) ->
  p = o + zlen (tbody t) ->
  nth_error (target_review (expert e) t ++ (if expert e then [ln "Entry-point" (Text ep)] else [])) i = Some ln0 ->
  displays (render_fixed_delegation_items j p (Z.of_nat i)) e o ln0.
Proof.
  intros W G [EL EN] A T SH -> Hi. change (S.len ep) with (zlen ep) in EL.
  apply at_app in A; destruct A as [A1 A2].
  pose proof (at_bound _ _ _ W A1) as B1. pose proof (at_bound _ _ _ W A2) as B2. pose proof (zlen_nonneg (tbody t)).
  pose proof (zlen_nonneg (lv ep)).
  unfold displays, render_fixed_delegation_items. rewrite step_ask. cbv zeta.
  replace (expert e || negb (UI_fixed_items j =? 3)) with true by (destruct (expert e); cbn; lia).
  rewrite T. cbv [ModuleBytes StoredVersionedContractByHash StoredContractByHash StoredVersionedContractByName StoredContractByName].
  pose proof (fun h => entry_at ep e (o + zlen (tbody t)) h W A2 EL EN) as EP.
  unfold tbody, good_target in *. destruct t as [h|n|h v|n v]; cbn [ttype enc_target tl target_review] in *; ground_eqb.
  - change (S.len h) with (zlen h) in G.
    destruct (expert e); cbn [app] in Hi; nth_split Hi; ground_eqb.
    1, 4: apply execution_at. 1, 3: apply address_at; auto.
    rewrite step_advance by lia. rewrite G in *. step (parse_item_at ep e _ W A2). apply EP. lia.
  - destruct (expert e); cbn [app] in Hi; nth_split Hi; ground_eqb.
    1, 4: apply execution_at. 1, 3: apply name_at; auto.
    step (parse_item_at n e o W A1). step (parse_item_at ep e _ W A2). apply EP. lia.
  - destruct G as [G GV]. change (S.len h) with (zlen h) in G.
    rewrite zlen_app in *. apply at_app in A1; destruct A1 as [A1 A3]. rewrite G in *.
    destruct (expert e); cbn [app] in Hi; nth_split Hi; ground_eqb.
    1, 5: apply execution_at. 1, 4: apply address_at; auto.
    all: pose proof (zlen_nonneg (enc_ver v)); rewrite step_advance by lia; step (version_at v e _ W GV A3).
    + apply number_item. apply version_nonneg; auto.
    + rewrite Z.add_assoc in A2, EP |- *. step (parse_item_at ep e _ W A2). apply EP. lia.
  - destruct G as [G GV]. rewrite zlen_app in *. apply at_app in A1; destruct A1 as [A1 A3].
    destruct (expert e); cbn [app] in Hi; nth_split Hi; ground_eqb.
    1, 5: apply execution_at. 1, 4: apply name_at; auto.
    all: step (parse_item_at n e o W A1); step (version_at v e _ W GV A3).
    + apply number_item. apply version_nonneg; auto.
    + rewrite Z.add_assoc in A2, EP |- *. step (parse_item_at ep e _ W A2). apply EP. lia.
Qed.

(** * Stored contracts *)
Definition stored_item (x : bool) (t : Z) (ep : list Z) (l : list arg) (io tot : Z) : ditem :=
  let v := if versioned t then 1 else 0 in
  match stored_op ep l with
  | Some op => mkD t (special_of (Some op)) false (if x then 2 + v else 0) (op_args op) tot io
  | None => mkD t (special_of (operation_of ep)) true (if x then 2 + v + 1 else 2)
                (if has "amount" l then 2 else 1) tot io
  end.

Definition stored_fine (ep : list Z) (l : list arg) (lines : list line) : Prop :=
  plain_types l = true /\
  match stored_op ep l with
  | Some op => zlen l = op_args op /\ delegation_review op l = Some lines
  | None => (ep = text "redelegate" -> typed_ok is_key_type "new_validator" l) /\
            generic_args_review l = Some lines
  end.

Lemma stored_entry t ep l lines e o :
  wf e -> Forall arg_ok l -> good_name 99 ep -> at_ e o (lv ep ++ enc_args l) -> t <> ModuleBytes ->
  stored_fine ep l lines ->
  check_entrypoint (init_item t) e o
  = (Ret (stored_item (expert e) t ep l (o + zlen (lv ep)) 0, zlen l, o), o + zlen (lv ep) + 4).
Proof.
  intros W F [EL EN] A NM (PT & SF). change (S.len ep) with (zlen ep) in EL.
  apply at_app in A; destruct A as [A1 A2].
  destruct (at_args _ _ _ W A2) as (RU & A3 & ZL).
  unfold check_entrypoint. rewrite step_get_off. step (copy_item_at 100 ep e o W A1 ltac:(lia)).
  rewrite step_get_off. step RU. unfold name_is. rewrite cstr_id by auto.
  destruct (special_names ep) as [-> ->].
  set (i := set_special _ _).
  assert (X : parseDelegation i (zlen l) (is_redelegate (operation_of ep)) e (o + zlen (lv ep) + 4)
              = (Ret (stored_item (expert e) t ep l (o + zlen (lv ep)) 0), o + zlen (lv ep) + 4)).
  { unfold parseDelegation. change (dtype i) with t. replace (t =? ModuleBytes) with false by lia.
    unfold stored_item, stored_op in *.
    destruct (has_delegation_args l) eqn:HD; [destruct (operation_of ep) as [op|] eqn:EO|].
    - destruct SF as [SL SR]. destruct (op_typed _ _ _ SR) as (_ & _ & _ & TN).
      rewrite delegation_args_op; auto.
      + unfold i. rewrite andb_true_r. unfold expert_fixed. dcbn. destruct op, (expert e), (versioned t); reflexivity.
      + unfold i; dcbn. destruct op; discriminate.
      + intros R. apply TN. destruct op; [discriminate R | discriminate R | reflexivity].
    - destruct SF as [SN SR]. rewrite delegation_args_generic; auto.
      + unfold i. rewrite andb_true_r. unfold expert_fixed. dcbn. destruct (expert e), (has "amount" l), (versioned t); reflexivity.
      + discriminate.
    - destruct SF as [SN SR]. rewrite delegation_args_generic; auto.
      + unfold i. rewrite andb_true_r. unfold expert_fixed. dcbn. destruct (expert e), (has "amount" l), (versioned t); reflexivity.
      + intros R. apply SN. unfold operation_of in R.
        destruct (list_eq_dec Z.eq_dec ep (text "delegate")); [discriminate R|].
        destruct (list_eq_dec Z.eq_dec ep (text "undelegate")); [discriminate R|].
        destruct (list_eq_dec Z.eq_dec ep (text "redelegate")); [auto | discriminate R]. }
  step X. reflexivity.
Qed.

Lemma stored_tail t ep l lines e o start :
  wf e -> Forall arg_ok l -> good_name 99 ep -> at_ e o (lv ep ++ enc_args l) -> t <> ModuleBytes ->
  stored_fine ep l lines -> 0 <= start < o ->
  (r <- check_entrypoint (init_item t) ;;
   parseRuntimeArgs (snd (fst r)) ;;
   tl <- parseTotalLength (start + 65536 * hi16 e) ;;
   ret (set_total tl (fst (fst r)), snd r)) e o
  = (Ret (stored_item (expert e) t ep l (o + zlen (lv ep)) (o + zlen (lv ep ++ enc_args l) - start + 1), o),
     o + zlen (lv ep ++ enc_args l)).
Proof.
  intros W F EN A NM SF SO. step (stored_entry _ _ _ _ _ _ W F EN A NM SF). cbn [fst snd].
  pose proof (at_bound _ _ _ W A) as B. rewrite zlen_app in *.
  apply at_app in A; destruct A as [A1 A2].
  destruct (at_args _ _ _ W A2) as (RU & A3 & ZL). rewrite ZL in *.
  pose proof (zlen_nonneg (lv ep)). pose proof (zlen_nonneg (enc_arg_list l)).
  step (parseRuntimeArgs_at l e _ W (args_supported _ F) A3).
  step (total_at start e (o + zlen (lv ep) + 4 + zlen (enc_arg_list l)) 0 ltac:(lia) ltac:(lia) ltac:(lia)).
  cbv [ret]. apply pair_ret; [|lia]. f_equal.
  unfold stored_item. destruct (stored_op ep l); dcbn; f_equal; lia.
Qed.

Lemma stored_parse t ep l lines e o :
  wf e -> good_target t -> Forall arg_ok l -> good_name 99 ep ->
  at_ e o (enc_session (Stored t ep l)) -> stored_fine ep l lines ->
  parseDeployItem_session (ttype t) e (o + 1)
  = (Ret (stored_item (expert e) (ttype t) ep l (o + 1 + zlen (tbody t) + zlen (lv ep)) (zlen (enc_session (Stored t ep l))),
          o + 1 + zlen (tbody t)), o + zlen (enc_session (Stored t ep l))).
Proof.
  intros W GT F EN A SF. pose proof (at_bound _ _ _ W A) as B. cbn [enc_session] in *.
  rewrite enc_target_cons in *. cbn [app] in *. rewrite zlen_cons, zlen_app in *. apply at_cons in A; destruct A as [_ A].
  apply at_app in A; destruct A as [A1 A2].
  pose proof (zlen_nonneg (tbody t)). pose proof (zlen_nonneg (lv ep ++ enc_args l)).
  assert (TB : 0 < zlen (tbody t)).
  { unfold tbody, good_target in *. destruct t; cbn [enc_target tl]; rewrite ?zlen_app, ?zlen_lv; change (@S.len Z) with (@zlen Z) in GT;
      try (pose proof (zlen_nonneg (enc_ver ver))); try (pose proof (zlen_nonneg n)); lia. }
  pose proof (stored_tail (ttype t) ep l lines e (o + 1 + zlen (tbody t)) (o + 1) W F EN A2
                ltac:(destruct t; discriminate) SF ltac:(lia)) as T.
  assert (E1 : o + 1 + zlen (tbody t) + zlen (lv ep ++ enc_args l) - (o + 1) + 1 = 1 + (zlen (tbody t) + zlen (lv ep ++ enc_args l))) by lia.
  rewrite E1 in T. replace (o + (1 + (zlen (tbody t) + zlen (lv ep ++ enc_args l)))) with (o + 1 + zlen (tbody t) + zlen (lv ep ++ enc_args l)) by lia.
  rewrite <- T. clear T E1.
  unfold parseDeployItem_session, good_target in *. destruct t as [h|n|h v|n v]; cbn [ttype];
    cbv [ModuleBytes StoredVersionedContractByHash StoredContractByHash StoredVersionedContractByName StoredContractByName]; ground_eqb;
    unfold parseStoredContractByHash, parseStoredContractByName, off32, tbody in *; cbn [enc_target tl] in *;
    rewrite bind_assoc, step_get_off, bind_assoc, step_ask, step_ret;
    cbv [StoredVersionedContractByHash StoredVersionedContractByName init_item dtype]; ground_eqb; fold (init_item 1); fold (init_item 2); fold (init_item 3); fold (init_item 4).
  - change (S.len h) with (zlen h) in GT. rewrite step_advance by lia. rewrite step_ret. rewrite GT. reflexivity.
  - step (parse_item_at n e _ W A1). rewrite step_ret. reflexivity.
  - destruct GT as [GT GV]. change (S.len h) with (zlen h) in GT. rewrite zlen_app in *. apply at_app in A1; destruct A1 as [A1 A3].
    pose proof (zlen_nonneg (enc_ver v)). pose proof (zlen_nonneg (lv ep ++ enc_args l)).
    rewrite step_advance by lia. rewrite GT in *. rewrite bind_assoc. step (version_at v e _ W GV A3). rewrite step_ret. rewrite Z.add_assoc. reflexivity.
  - destruct GT as [GT GV]. rewrite zlen_app in *. apply at_app in A1; destruct A1 as [A1 A3].
    step (parse_item_at n e _ W A1). rewrite bind_assoc. step (version_at v e _ W GV A3). rewrite step_ret. rewrite Z.add_assoc. reflexivity.
Qed.

Lemma target_lines x t : zlen (target_review x t) = 2 + (if x && versioned (ttype t) then 1 else 0).
Proof. destruct t, x; reflexivity. Qed.

Lemma nth_app {A} (a b : list A) i x : nth_error (a ++ b) i = Some x ->
  ((i < List.length a)%nat /\ nth_error a i = Some x) \/
  ((List.length a <= i)%nat /\ nth_error b (i - List.length a) = Some x).
Proof.
  intros H. destruct (Nat.lt_ge_cases i (List.length a)) as [L|L].
  - left. rewrite nth_error_app1 in H by auto. auto.
  - right. rewrite nth_error_app2 in H by auto. auto.
Qed.

Lemma app2_inv {A} (a : list A) b r : app2 a b = Some r -> exists c, b = Some c /\ r = a ++ c.
Proof. destruct b; cbn; intros X; inversion X; eauto. Qed.

Lemma stored_review_inv H x t ep l lines :
  session_review H x (Stored t ep l) = Some lines ->
  exists rl, stored_fine ep l rl /\
    lines = (match stored_op ep l with
             | Some _ => if x then target_review true t else []
             | None => target_review x t ++ (if x then [ln "Entry-point" (Text ep)] else [])
             end) ++ rl.
Proof.
  cbn [session_review]. intros R. destruct (plain_types l) eqn:PT; [|discriminate]. cbn [negb] in R.
  unfold stored_fine. destruct (stored_op ep l) as [op|] eqn:SO.
  - change (S.len l) with (zlen l) in R. destruct (zlen l =? op_args op) eqn:EL; [|discriminate].
    apply app2_inv in R; destruct R as (c & R & ->). exists c; repeat split; auto; lia.
  - destruct ((if list_eq_dec Z.eq_dec ep (text "redelegate") then true else false) &&
               negb (has "new_validator" l && typed_if_present is_key_type "new_validator" l)) eqn:C; [discriminate|].
    apply app2_inv in R; destruct R as (c & R & ->). exists c; repeat split; auto.
    intros E. destruct (list_eq_dec Z.eq_dec ep (text "redelegate")); [|contradiction].
    cbn [andb] in C. apply negb_false_iff, andb_true_iff in C. apply has_typed; tauto.
Qed.

Lemma of_nat_sub i n : (n <= i)%nat -> Z.of_nat (i - n) = Z.of_nat i - Z.of_nat n.
Proof. lia. Qed.

Lemma stored_session e o t ep l lines :
  wf e -> good_target t -> Forall arg_ok l -> good_name 99 ep ->
  at_ e o (enc_session (Stored t ep l)) ->
  session_review (hash e) (expert e) (Stored t ep l) = Some lines ->
  session_ok e o (Stored t ep l) lines
    (stored_item (expert e) (ttype t) ep l (o + 1 + zlen (tbody t) + zlen (lv ep)) (zlen (enc_session (Stored t ep l))),
     o + 1 + zlen (tbody t)).
Proof.
  intros W GT F EN A R. apply stored_review_inv in R. destruct R as (rl & SF & ->).
  pose proof (stored_parse t ep l rl e o W GT F EN A SF) as PP.
  pose proof (at_bound _ _ _ W A) as B.
  set (it := stored_item _ _ _ _ _ _) in PP.
  set (p := o + 1 + zlen (tbody t)) in *.
  assert (NR : zlen rl = UI_runtime_items it /\ 0 <= UI_runtime_items it <= 4).
  { destruct SF as [_ SF]. unfold it, stored_item. destruct (stored_op ep l) as [op|]; dcbn.
    - destruct SF as [_ SF]. rewrite (op_lines _ _ _ SF). destruct op; cbn; lia.
    - destruct SF as [_ SF]. rewrite (generic_lines _ _ SF). destruct (has "amount" l); lia. }
  destruct NR as [NR NR'].
  set (fx := match stored_op ep l with
             | Some _ => if expert e then target_review true t else []
             | None => target_review (expert e) t ++ (if expert e then [ln "Entry-point" (Text ep)] else [])
             end) in *.
  assert (NF : zlen fx = UI_fixed_items it).
  { unfold fx, it, stored_item. destruct (stored_op ep l); dcbn; destruct (expert e); rewrite ?zlen_app, ?target_lines; cbn [andb]; try reflexivity;
    destruct (versioned (ttype t)); reflexivity. }
  assert (NF' : 0 <= UI_fixed_items it <= 4).
  { unfold it, stored_item. destruct (stored_op ep l); dcbn; destruct (expert e), (versioned (ttype t)); lia. }
  assert (ST : stype (Stored t ep l) = ttype t) by (destruct t; reflexivity).
  match goal with |- session_ok _ _ _ ?ll _ => change (session_ok e o (Stored t ep l) ll (it, p)) end.
  constructor; cbn [fst snd].
  - rewrite ST. exact PP.
  - unfold it, stored_item. destruct (stored_op ep l); reflexivity.
  - lia.
  - lia.
  - rewrite zlen_app. lia.
  - rewrite zlen_app. lia.
  - intros h py Hp. unfold deploy_type_text. cbn [Deploy.payment Deploy.session]. rewrite Hp.
    unfold it, stored_item, type_text.
    assert (TT : ttype t =? Deploy.Transfer = false) by (destruct t; reflexivity).
    destruct (stored_op ep l) as [op|]; dcbn; rewrite TT; cbn [andb negb].
    + destruct op; reflexivity.
    + rewrite !andb_false_r. reflexivity.
  - intros i ln0 Hi. unfold session_item.
    assert (SP : dspecial it = special_of (match stored_op ep l with Some op => Some op | None => operation_of ep end)).
    { unfold it, stored_item. destruct (stored_op ep l); reflexivity. }
    assert (SPT : (dspecial it =? NativeTransfer) = false /\
       ((dspecial it =? Delegate) || (dspecial it =? UnDelegate) || (dspecial it =? ReDelegate) || (dspecial it =? Generic)) = true).
    { rewrite SP. destruct (match stored_op ep l with Some op => Some op | None => operation_of ep end) as [[]|]; split; reflexivity. }
    destruct SPT as [-> ->].
    cbn [enc_session] in A. rewrite enc_target_cons in A. cbn [app] in A.
    pose proof (at_cons e o (ttype t) (tbody t ++ lv ep ++ enc_args l)) as AC. apply AC in A. clear AC. destruct A as [_ A].
    rewrite app_assoc in A. apply at_app in A. destruct A as [A1 A2]. rewrite zlen_app in A2.
    pose proof (at_bound _ _ _ W A1) as B1. pose proof (at_bound _ _ _ W A2) as B2.
    pose proof (zlen_nonneg (tbody t ++ lv ep)). pose proof (zlen_nonneg (enc_args l)).
    unfold displays, getItem_Delegation. rewrite step_advance by lia.
    assert (IO : itemOffset it = o + 1 + (zlen (tbody t) + zlen (lv ep))).
    { unfold it, stored_item. unfold p. destruct (stored_op ep l); dcbn; lia. }
    apply nth_app in Hi. destruct Hi as [[Li Hi]|[Li Hi]].
    + replace (Z.of_nat i <? UI_fixed_items it) with true by (rewrite <- NF; unfold zlen; lia).
      assert (K1 : dtype it = ttype t) by (unfold it, stored_item; destruct (stored_op ep l); reflexivity).
      assert (K2 : expert e = true \/ UI_fixed_items it <> 3).
      { unfold it, stored_item. destruct (stored_op ep l); dcbn; destruct (expert e); auto; right; lia. }
      assert (K3 : nth_error (target_review (expert e) t ++ (if expert e then [ln "Entry-point" (Text ep)] else [])) i = Some ln0).
      { unfold fx in Hi. destruct (stored_op ep l); [|exact Hi].
        destruct (expert e); [|destruct i; discriminate Hi]. rewrite nth_error_app1; auto. }
      exact (fixed_items t ep it e (o + 1) p i ln0 W GT EN A1 K1 K2 eq_refl K3).
    + pose proof (nth_cases _ _ _ Hi) as Lj.
      assert (LF : Z.of_nat (List.length fx) = UI_fixed_items it) by exact NF.
      assert (LR : Z.of_nat (List.length rl) = UI_runtime_items it) by exact NR.
      replace (Z.of_nat i <? UI_fixed_items it) with false by lia.
      rewrite step_set_off by lia.
      rewrite u8_small by lia. rewrite step_check by lia.
      replace (Z.of_nat i - UI_fixed_items it) with (Z.of_nat (i - List.length fx)) by lia.
      destruct SF as [PT SF].
      assert (DG : dgeneric it = match stored_op ep l with Some _ => false | None => true end)
        by (unfold it, stored_item; destruct (stored_op ep l); reflexivity).
      rewrite DG.
      destruct (stored_op ep l) as [op|] eqn:SO.
      * destruct SF as [SL SF].
        assert (DT : dtype it =? ModuleBytes = false) by (unfold it, stored_item; rewrite SO; destruct t; reflexivity).
        rewrite DT. rewrite <- IO in A2. destruct (at_args _ _ _ W A2) as (RU & A3 & ZL). step RU.
        assert (RT : UI_runtime_items it = zlen l) by (unfold it, stored_item; rewrite SO; dcbn; lia).
        rewrite RT. apply (op_items op l rl it e (itemOffset it + 4) _ ln0 W F A3 SF SP Hi).
      * destruct SF as [_ SF]. rewrite <- IO in A2.
        apply (generic_items l rl it e (i - List.length fx) ln0 W F A2 SF); auto.
        unfold it, stored_item; rewrite SO; reflexivity.
Qed.
