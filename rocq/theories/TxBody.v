(** Parsing the body of an encoded TransactionV1, its approvals, and the whole. *)
From Verif Require Import Base Zxlib Crypto Utils RuntimeArg Deploy DeployUI TxV1 TxV1UI Parser BaseFacts Spec SpecText SpecDeploy SpecTx Exec ArgsFacts ReaderFacts TextFacts Shows TxFacts.
Import S ST SD SX.

(** * Arguments *)
Lemma read_arg_at a e o :
  wf e -> supported (a_ty a) = true -> at_ e o (enc_arg a) -> read_arg e o = (Ret tt, o + zlen (enc_arg a)).
Proof.
  intros W Sp H; unfold enc_arg in H; rewrite !at_app in H; destruct H as (H1 & H2 & H3).
  unfold read_arg, read_string, read_clvalue.
  step (read_bytes_at _ _ _ W H1). step (read_bytes_at _ _ _ W H2).
  destruct (get_type_at (a_ty a) 0 _ _ W Sp H3) as (it & Hit & _). step Hit.
  unfold enc_arg; rewrite !zlen_app. cbv [ret]; pr.
Qed.
Lemma read_args_iter l e o :
  wf e -> Forall (fun a => supported (a_ty a) = true) l -> at_ e o (enc_arg_list l) ->
  iter_loop (R := unit) (List.length l) (fun _ => read_arg ;; ret (Next tt)) tt e o
  = (Ret (Next tt), o + zlen (enc_arg_list l)).
Proof.
  intros W F; revert o; induction F as [|a l Ha F IH]; intros o H.
  - cbn; pr.
  - rewrite enc_arg_list_cons in *; apply at_app in H; destruct H as [H1 H2].
    cbn [List.length iter_loop].
    rewrite bind_assoc. step (read_arg_at a e o W Ha H1). rewrite step_ret.
    rewrite (IH _ H2), zlen_app. pr.
Qed.

Definition arg_obj (o : Z) (a : args) : args_v1 :=
  match a with
  | Named l => mkArgs false (u8 (o + 9)) (zlen (enc_xargs a)) (zlen l)
  | Raw bs => mkArgs true (u8 (o + 9)) (zlen bs) 0
  end.
Lemma args_at a e o :
  wf e -> at_ e o (lv (enc_xargs a)) -> good_xargs a ->
  read_args e o = (Ret (arg_obj o a), o + zlen (lv (enc_xargs a))).
Proof.
  intros W A G. pose proof (at_bound _ _ _ W A) as B. rewrite zlen_lv in *.
  apply at_lv in A. destruct A as [A1 A2]. pose proof (zlen_nonneg (enc_xargs a)).
  unfold read_args. step (readU32_at _ e _ W A1 ltac:(lia)).
  destruct a as [l|bs]; cbn [enc_xargs] in *; rewrite zlen_cons in *;
    apply (at_app e _ [_]) in A2; destruct A2 as [A2 A3]; change (zlen [_]) with 1 in A3;
    step (readU8_at _ e _ W A2); cbn [Z.eqb Pos.eqb].
  - unfold enc_args in *. rewrite zlen_app, le_length in *. apply at_app in A3. destruct A3 as [A3 A4].
    rewrite le_length in A4. cbn [Z.of_nat Pos.of_succ_nat Pos.succ] in *. change (S.len l) with (zlen l) in *.
    assert (L : zlen l <= zlen (enc_arg_list l)).
    { clear. induction l as [|a l IH]; [cbn; lia|]. rewrite enc_arg_list_cons, zlen_app, zlen_cons. unfold enc_arg at 1.
      rewrite !zlen_app, !zlen_lv. pose proof (zlen_nonneg (a_name a)). pose proof (zlen_nonneg (a_val a)). pose proof (zlen_nonneg (enc_type (a_ty a))). lia. }
    pose proof (zlen_nonneg l).
    step (readU32_at _ e _ W A3 ltac:(lia)). rewrite step_get_off.
    assert (X : loop (R := unit) (zlen l) (fun _ => read_arg ;; ret (Next tt)) tt e (o + 4 + 1 + 4)
                = (Ret (Next tt), o + 4 + 1 + 4 + zlen (enc_arg_list l))).
    { rewrite loop_iter. unfold zlen at 1; rewrite Nat2Z.id. apply read_args_iter; auto.
      unfold good_xargs in G. cbn [named] in G. eapply Forall_impl; [|exact G]. intros x Hx. apply Hx. }
    step X. cbv [ret]. apply pair_ret; [|lia]. unfold arg_obj. cbn [enc_xargs]. unfold enc_args.
    rewrite zlen_cons, zlen_app, le_length. f_equal. f_equal. lia.
  - rewrite step_get_off. step (read_bytes_at _ e _ W A3). cbv [ret]. rewrite zlen_lv in *. apply pair_ret; [|lia].
    unfold arg_obj. f_equal. f_equal. lia.
Qed.

(** * Target *)
Lemma bool_byte_cases b : bool_byte b = 0 \/ bool_byte b = 1.
Proof. destruct b; auto. Qed.
Lemma runtime_at r e o : wf e -> at_ e o (enc_runtime r) -> good_runtime r ->
  read_runtime e o = (Ret tt, o + zlen (enc_runtime r)).
Proof.
  intros W A G. unfold read_runtime. pose proof (at_bound _ _ _ W A) as B. destruct r as [|v s]; cbn [enc_runtime good_runtime] in *.
  - step (metadata_at _ e _ W A ltac:(zn; lia)). zn. gz.
    unfold table in A. apply at_app in A. destruct A as [_ A]. rewrite zlen_head in A. zn. gzi A. cbn [List.concat app] in A.
    step (readU8_at _ e _ W A). cbn [Z.eqb]. unfold check. rewrite zlen_table. cbn [List.concat app]. zn. apply pair_ret; auto. lia.
  - step (metadata_at _ e _ W A ltac:(zn; lia)). zn. gz.
    rewrite zlen_table in *. unfold table in A. apply at_app in A. destruct A as [_ A]. rewrite zlen_head in A. zn. gzi A. cbn [List.concat] in *.
    rewrite !at_app, le_length in A. zn. rewrite !zlen_app, le_length in *. zn.
    cbn [Z.of_nat Pos.of_succ_nat Pos.succ] in *. destruct A as (A1 & A2 & A3 & _). gz. gzi A2. gzi A3.
    step (readU8_at _ e _ W A1). cbn [Z.eqb Pos.eqb]. step (readU64_at _ e _ W A2 ltac:(lia)).
    destruct s as [h|]; zn.
    + apply (at_app e _ [1] h) in A3. destruct A3 as [A3 A4]. step (readU8_at _ e _ W A3). cbn [Z.eqb Pos.eqb].
      destruct G as [_ G]. change (S.len h) with (zlen h) in G. change (zlen [1]) with 1 in A4. rewrite (read_hash_at _ _ _ W A4 G), G. apply pair_ret; auto. lia.
    + step (readU8_at _ e _ W A3). cbn [Z.eqb Pos.eqb]. unfold check. apply pair_ret; auto. lia.
Qed.
Lemma version_at v e o : wf e -> at_ e o (enc_ver v) -> good_ver v ->
  read_entity_version e o = (Ret (match v with Some n => n | None => NO_ENTITY_VERSION_PRESENT end), o + zlen (enc_ver v)).
Proof.
  intros W A G. unfold read_entity_version, read_bool. rewrite !bind_assoc. destruct v as [n|]; cbn [enc_ver] in *.
  - apply (at_app e _ [1]) in A. destruct A as [A A1]. step (readU8_at _ e _ W A). rewrite bind_assoc. cbn [Z.eqb Pos.eqb orb].
    rewrite step_check by reflexivity. rewrite step_ret. cbn [Z.eqb Pos.eqb].
    change (zlen [1]) with 1 in A1. rewrite (readU32_at _ e _ W A1 G). apply pair_ret; auto. rewrite zlen_cons, le_length. lia.
  - step (readU8_at _ e _ W A). rewrite bind_assoc. rewrite step_check by reflexivity. rewrite step_ret. reflexivity.
Qed.

Definition ver_no (v : option Z) : Z := match v with Some n => n | None => NO_ENTITY_VERSION_PRESENT end.
Definition ver_item (x : bool) (v : option Z) : Z := b2z (negb (ver_no v =? NO_ENTITY_VERSION_PRESENT) && x).
(** [o]: position of the target, without its length *)
Definition tgt_obj (o : Z) (t : xtarget) : TxV1.target :=
  match t with
  | Native => mkTarget TargetNative 0 0 0
  | XStored (ByHash h) _ => mkTarget TargetStoredByHash (o + 48) 0 0
  | XStored (ByName n) _ => mkTarget TargetStoredByName (o + 52) (zlen n) 0
  | XStored (ByHashV h v) _ => mkTarget TargetStoredByPackageHash (o + 54) 0 (ver_no v)
  | XStored (ByNameV n v) _ => mkTarget TargetStoredByPackageName (o + 58) (zlen n) (ver_no v)
  | Session _ _ _ => mkTarget TargetSession 0 0 0
  end.
Definition tgt_items (x : bool) (t : xtarget) : Z :=
  match t with
  | XStored (ByHash _) _ | XStored (ByName _) _ => 3
  | XStored (ByHashV _ v) _ | XStored (ByNameV _ v) _ => 3 + ver_item x v
  | _ => 0
  end.

Ltac enter A := unfold table in A; apply at_app in A; destruct A as [_ A]; rewrite zlen_head in A; zn; gzi A; cbn [List.concat] in A.

Lemma stored_at i e o : wf e -> at_ e o (enc_id i) -> good_id i ->
  bind read_metadata (fun _ => read_stored) e o
  = (Ret (tgt_obj (o - 27) (XStored i VmV1), tgt_items (expert e) (XStored i VmV1)), o + zlen (enc_id i)).
Proof.
  intros W A G. pose proof (at_bound _ _ _ W A) as B.
  destruct i as [h|n|h v|n v]; cbn [enc_id good_id] in *; step (metadata_at _ e _ W A ltac:(zn; lia)); zn; gz;
    enter A; rewrite zlen_table in *; cbn [List.concat] in *; rewrite ?app_nil_r in *; rewrite ?zlen_app, ?zlen_lv in *; zn; gz;
    rewrite ?at_app in A; zn; unfold read_stored, read_entity_address, read_string.
  - destruct A as [A1 A2]. change (S.len h) with (zlen h) in G.
    step (readU8_at _ e _ W A1). rewrite step_ask, step_get_off. cbn [Z.eqb].
    step (read_hash_at _ _ _ W A2 G). cbv [ret]. apply pair_ret; [|lia]. cbn [tgt_obj tgt_items]. f_equal; f_equal; lia.
  - destruct A as [A1 A2].
    step (readU8_at _ e _ W A1). rewrite step_ask, step_get_off. cbn [Z.eqb Pos.eqb].
    step (read_bytes_at _ _ _ W A2). cbv [ret]. rewrite zlen_lv. apply pair_ret; [|lia]. cbn [tgt_obj tgt_items]. f_equal; f_equal; lia.
  - destruct A as (A1 & A2 & A3). destruct G as [G Gv]. change (S.len h) with (zlen h) in G.
    step (readU8_at _ e _ W A1). rewrite step_ask, step_get_off. cbn [Z.eqb Pos.eqb].
    step (read_hash_at _ _ _ W A2 G). rewrite G in *. step (version_at _ _ _ W A3 Gv). cbv [ret]. apply pair_ret; [|lia].
    cbn [tgt_obj tgt_items]. fold (ver_no v). unfold ver_item. f_equal; f_equal; lia.
  - destruct A as (A1 & A2 & A3). destruct G as [G Gv]. rewrite zlen_lv in A3.
    step (readU8_at _ e _ W A1). rewrite step_ask, step_get_off. cbn [Z.eqb Pos.eqb].
    step (read_bytes_at _ _ _ W A2). rewrite zlen_lv in *. step (version_at _ _ _ W A3 Gv). cbv [ret]. apply pair_ret; [|lia].
    cbn [tgt_obj tgt_items]. fold (ver_no v). unfold ver_item. f_equal; f_equal; lia.
Qed.

Lemma target_at t e o : wf e -> at_ e o (lv (enc_xtarget t)) -> good_xtarget t ->
  read_target e o = (Ret (tgt_obj (o + 4) t, tgt_items (expert e) t), o + zlen (lv (enc_xtarget t))).
Proof.
  intros W A G. pose proof (at_bound _ _ _ W A) as B. rewrite zlen_lv in *. pose proof (zlen_nonneg (enc_xtarget t)).
  apply at_lv in A. destruct A as [A1 A]. unfold read_target. step (readU32_at _ e _ W A1 ltac:(lia)).
  destruct t as [|i r|u r w]; cbn [enc_xtarget good_xtarget] in *; rewrite zlen_table in *; cbn [List.concat] in *;
    rewrite ?app_nil_r in *; rewrite ?zlen_app in *; zn;
    step (metadata_at _ e _ W A ltac:(zn; lia)); zn; gz; foffs; rewrite ?app_nil_r, ?zlen_app; zn; gz;
    rewrite step_get_off; enter A; rewrite ?app_nil_r in A; rewrite ?at_app in A; zn; rewrite ?zlen_app; gz.
  - rewrite step_field by lia. step (readU8_at _ e _ W A). cbn [Z.eqb]. rewrite step_field by lia. cbv [ret].
    apply pair_ret; [reflexivity | lia].
  - destruct A as (A2 & A3 & A4). destruct G as [Gi Gr]. change (1 + 0) with 1 in *. pose proof (zlen_nonneg (enc_id i)). pose proof (zlen_nonneg (enc_runtime r)).
    rewrite step_field by lia. step (readU8_at _ e _ W A2). cbn [Z.eqb Pos.eqb]. rewrite step_field by lia.
    pose proof (stored_at i e _ W A3 Gi) as X.
    assert (Y : forall (k : TxV1.target * Z -> P (TxV1.target * Z)) e o, bind read_metadata (fun _ => bind read_stored k) e o = bind (bind read_metadata (fun _ => read_stored)) k e o)
      by (intros k e0 o0; symmetry; apply bind_assoc).
    rewrite Y. step X. step (runtime_at r e _ W A4 Gr). cbv [ret]. apply pair_ret; [|lia].
    destruct i; cbn [tgt_obj tgt_items]; f_equal; f_equal; lia.
  - destruct A as (A2 & A3 & A4 & A5). change (1 + 0) with 1 in *. pose proof (zlen_nonneg (lv w)). pose proof (zlen_nonneg (enc_runtime r)).
    rewrite step_field by lia. step (readU8_at _ e _ W A2). cbn [Z.eqb Pos.eqb]. rewrite step_field by lia.
    unfold read_bool. rewrite !bind_assoc. step (readU8_at _ e _ W A3). rewrite bind_assoc, step_check by (destruct u; reflexivity).
    rewrite step_ret. gz. gzi A4. step (runtime_at r e _ W A4 G). gzi A5. step (read_bytes_at _ e _ W A5). cbv [ret].
    apply pair_ret; [reflexivity | lia].
Qed.

(** * Mandatory arguments *)
(** [p] succeeds or fails, according to [b]. *)
Definition decides (b : bool) (p : P unit) (e : env) (o : Z) : Prop :=
  if b then exists o', p e o = (Ret tt, o') else exists c o', p e o = (Fail c, o').

Lemma decides_seq b c (p q : P unit) e o :
  decides b p e o -> (b = true -> forall o', decides c q e o') -> decides (b && c) (p ;; q) e o.
Proof.
  unfold decides. destruct b; cbn [andb].
  - intros (o' & E) H. rewrite (bind_Ret _ _ _ _ _ _ E). apply (H eq_refl).
  - intros (x & o' & E) _. exists x, o'. unfold bind. rewrite E. reflexivity.
Qed.
Lemma decides_ret e o : decides true (ret tt) e o.
Proof. exists o. reflexivity. Qed.

Lemma must_have_at l name u s e o :
  wf e -> Forall arg_ok l -> at_ e s (enc_arg_list l) -> decides (meets l (name, u)) (must_have s (zlen l) name u) e o.
Proof.
  intros W F A. pose proof (at_bound _ _ _ W A) as B. pose proof (zlen_nonneg (enc_arg_list l)).
  pose proof (getData_at (text name) l e s W F A) as G. unfold meets, must_have. cbn [fst snd].
  unfold find_arg, decides. rewrite step_set_off by lia. change (str name) with (text name).
  destruct (lookup (text name) l) as [[p a]|].
  - destruct G as [G _]. step G. cbn [snd]. destruct u; cbn [negb orb].
    + change TAG_U512 with 8. unfold check. destruct (tag (a_ty a) =? 8); [|do 2 eexists; reflexivity]. eexists; reflexivity.
    + eexists; reflexivity.
  - rewrite (bind_Fail _ _ _ _ _ _ G). eauto.
Qed.

Definition entry_no (x : entry) : Z := match x with Call => 0 | Custom _ => 1 | Op n => native_tag n end.
Definition target_no (t : xtarget) : Z :=
  match t with
  | Native => 0 | XStored (ByHash _) _ => 1 | XStored (ByName _) _ => 2 | XStored (ByHashV _ _) _ => 3
  | XStored (ByNameV _ _) _ => 4 | Session _ _ _ => 5
  end.
Lemma ttype_obj o t : ttype (tgt_obj o t) = target_no t.
Proof. destruct t as [|[]|]; reflexivity. Qed.

Lemma sanity_at a x t e o :
  wf e -> 0 <= o < 65536 -> Forall good_arg (named a) ->
  forall ao, num_runtime_args ao = zlen (named a) ->
  (match x with Op _ => at_ e (runtime_args_offset ao) (enc_arg_list (named a)) | _ => True end) ->
  if callable x t && complete x a
  then check_sanity_native_transfer ao (entry_no x) (target_no t) e o = (Ret tt, o)
  else exists c o', check_sanity_native_transfer ao (entry_no x) (target_no t) e o = (Fail c, o').
Proof.
  intros W Ho G ao N A. apply good_arg_ok in G.
  unfold check_sanity_native_transfer. rewrite step_get_off. rewrite N.
  assert (C : (entry_no x =? EntryPointCustom) || (target_no t =? TargetNative) || (target_no t =? TargetSession) = callable x t).
  { destruct x as [|n|n]; destruct t as [|[]|]; try reflexivity; destruct n; reflexivity. }
  rewrite C. destruct (callable x t); cbn [andb].
  2:{ do 2 eexists. unfold bind, check. cbn. reflexivity. }
  rewrite step_check by reflexivity.
  assert (D : forall p, decides (complete x a) p e o ->
              if complete x a then (p ;; set_off o) e o = (Ret tt, o)
              else exists c o', (p ;; set_off o) e o = (Fail c, o')).
  { intros p. unfold decides. destruct (complete x a).
    - intros (o' & E). rewrite (bind_Ret _ _ _ _ _ _ E). unfold set_off. rewrite u16_small by lia. reflexivity.
    - intros (c & o' & E). exists c, o'. apply bind_Fail. exact E. }
  apply D. clear D. destruct x as [|nm|n]; [apply decides_ret | apply decides_ret|].
  cbn [complete]. assert (M : forall name u o1, decides (meets (named a) (name, u)) (must_have (runtime_args_offset ao) (zlen (named a)) name u) e o1)
    by (intros; apply must_have_at; auto).
  destruct n; cbn [mandatory forallb entry_no native_tag];
    cbv [EntryPointTransfer EntryPointAddBid EntryPointWithdrawBid EntryPointDelegate EntryPointUndelegate EntryPointRedelegate EntryPointActivateBid EntryPointChangePublicKey EntryPointAddReservations EntryPointCancelReservations EntryPointBurn];
    cbn [Z.eqb Pos.eqb orb]; rewrite ?andb_true_r;
    repeat (apply decides_seq; [apply M | intros _ ?]); apply M.
Qed.

(** * Entry point *)
(** [o]: position of the entry point, without its length *)
Definition name_pos (o : Z) (x : entry) : Z := match x with Custom _ => o + 25 | _ => 0 end.
Definition name_len (x : entry) : Z := match x with Custom n => zlen n | _ => 0 end.
Lemma entry_steps ao x tn e o :
  wf e -> at_ e o (lv (enc_entry x)) ->
  read_entry_point ao tn e o
  = bind (check_sanity_native_transfer ao (entry_no x) tn)
         (fun _ => ret (entry_no x, name_pos (o + 4) x, name_len x, entry_point_items (expert e) (entry_no x) (num_runtime_args ao)))
         e (o + zlen (lv (enc_entry x))).
Proof.
  intros W A. pose proof (at_bound _ _ _ W A) as B. rewrite zlen_lv in *. pose proof (zlen_nonneg (enc_entry x)).
  apply at_lv in A. destruct A as [A1 A]. unfold read_entry_point. step (readU32_at _ e _ W A1 ltac:(lia)).
  destruct x as [|nm|n]; cbn [enc_entry entry_no name_pos name_len] in *; rewrite zlen_table in *; cbn [List.concat app] in *;
    rewrite ?app_nil_r in *; zn; step (metadata_at _ e _ W A ltac:(zn; lia)); zn; gz; foffs;
    cbn [app]; rewrite ?app_nil_r; zn; gz; rewrite step_get_off; enter A; cbn [app] in A; rewrite ?app_nil_r in A.
  - rewrite step_field by lia. step (readU8_at _ e _ W A). rewrite step_check by reflexivity.
    change (0 =? EntryPointCustom) with false. cbv iota. rewrite step_ret, step_field by lia. rewrite step_ask.
    cbn [fst snd]. f_equal. lia.
  - apply (at_app e _ [1]) in A. destruct A as [A A2]. change (zlen [1]) with 1 in A2. rewrite zlen_lv in *. pose proof (zlen_nonneg nm).
    rewrite step_field by lia. step (readU8_at _ e _ W A). rewrite step_check by reflexivity.
    change (1 =? EntryPointCustom) with true. cbv iota. rewrite !bind_assoc, step_field by lia. rewrite !bind_assoc, step_get_off, !bind_assoc.
    step (read_bytes_at _ e _ W A2). rewrite step_ret. rewrite zlen_lv. rewrite step_field by lia. rewrite step_ask. cbn [fst snd].
    replace (o + 4 + 20 + 1 + 4) with (o + 4 + 25) by lia. f_equal. lia.
  - rewrite step_field by lia. step (readU8_at _ e _ W A). rewrite step_check by (destruct n; reflexivity).
    replace (native_tag n =? EntryPointCustom) with false by (destruct n; reflexivity). cbv iota. rewrite step_ret, step_field by lia. rewrite step_ask.
    cbn [fst snd]. f_equal. lia.
Qed.

(** * Scheduling, approvals *)
Lemma scheduling_at e o : wf e -> at_ e o (lv (table [[0]])) -> read_scheduling e o = (Ret tt, o + zlen (lv (table [[0]]))).
Proof.
  intros W A. pose proof (at_bound _ _ _ W A) as B. rewrite zlen_lv, zlen_table in *. cbn [List.concat app] in *. zn.
  apply at_lv in A. destruct A as [A1 A]. unfold read_scheduling. step (readU32_at _ e _ W A1 ltac:(rewrite zlen_table; cbn [List.concat app]; zn; lia)).
  step (metadata_at _ e _ W A ltac:(zn; lia)); zn; gz; foffs; zn. cbn [app]. zn. gz. rewrite step_get_off. enter A. cbn [app] in A.
  rewrite step_field by lia. step (readU8_at _ e _ W A). rewrite step_check by reflexivity. rewrite field_at by lia. apply pair_ret; auto. lia.
Qed.

Lemma approval_at a e o : wf e -> at_ e o (enc_approval a) -> good_approval a ->
  bind read_public_key (fun _ => read_signature) e o = (Ret tt, o + zlen (enc_approval a)).
Proof.
  intros W A G. pose proof (at_bound _ _ _ W A) as B. unfold enc_approval in *. unfold good_approval in G.
  destruct G as (G1 & G2 & G3). change (S.len (ap_key a)) with (zlen (ap_key a)) in *. change (S.len (ap_sig a)) with (zlen (ap_sig a)) in *.
  change ([ap_alg a] ++ ap_key a ++ [ap_alg a] ++ ap_sig a) with ((ap_alg a :: ap_key a) ++ [ap_alg a] ++ ap_sig a) in A.
  apply at_app in A. destruct A as [A1 A2]. apply at_app in A2. destruct A2 as [A2 A3].
  rewrite !zlen_app in *. zn. pose proof (zlen_nonneg (ap_key a)).
  step (key_at _ _ _ _ W A1 G1 G2). unfold read_signature. rewrite zlen_cons. step (readU8_at _ e _ W A2).
  rewrite step_check by (destruct G1 as [-> | ->]; reflexivity).
  unfold advance. rewrite step_get_off. unfold set_off. rewrite u16_small by lia. apply pair_ret; auto. lia.
Qed.
Lemma approvals_iter l e o :
  wf e -> Forall good_approval l -> at_ e o (List.concat (List.map enc_approval l)) ->
  iter_loop (R := unit) (List.length l) (fun _ => read_public_key ;; read_signature ;; ret (Next tt)) tt e o
  = (Ret (Next tt), o + zlen (List.concat (List.map enc_approval l))).
Proof.
  intros W F; revert o; induction F as [|a l Ha F IH]; intros o H.
  - cbn; pr.
  - cbn [List.map List.concat] in *; apply at_app in H; destruct H as [H1 H2].
    cbn [List.length iter_loop]. pose proof (approval_at a e o W H1 Ha) as X.
    assert (Y : bind read_public_key (fun _ => bind read_signature (fun _ => ret (@Next unit unit tt))) e o = (Ret (Next tt), o + zlen (enc_approval a))).
    { rewrite <- bind_assoc. step X. reflexivity. }
    step Y. rewrite (IH _ H2), zlen_app. pr.
Qed.
Lemma approvals_at l e o :
  wf e -> Forall good_approval l -> at_ e o (enc_approvals l) -> zlen l < 256 ->
  read_txV1_approvals e o = (Ret (zlen l), o + zlen (enc_approvals l)).
Proof.
  intros W F A L. unfold enc_approvals in *. rewrite zlen_app, le_length. apply at_app in A. destruct A as [A1 A2]. rewrite le_length in A2.
  cbn [Z.of_nat Pos.of_succ_nat Pos.succ] in *. change (S.len l) with (zlen l) in *. pose proof (zlen_nonneg l).
  unfold read_txV1_approvals. step (readU32_at _ e _ W A1 ltac:(lia)).
  assert (X : loop (R := unit) (zlen l) (fun _ => read_public_key ;; read_signature ;; ret (Next tt)) tt e (o + 4)
              = (Ret (Next tt), o + 4 + zlen (List.concat (List.map enc_approval l)))).
  { rewrite loop_iter. unfold zlen at 1; rewrite Nat2Z.id. apply approvals_iter; auto. }
  step X. rewrite u8_small by lia. cbv [ret]. pr.
Qed.

(** * The body *)
Definition apos (p : payload) : Z := bpos p + 15.
Definition xlen (p : payload) : Z := zlen (enc_xargs (x_args p)).
Definition tlen (p : payload) : Z := zlen (enc_xtarget (x_target p)).
Definition elen (p : payload) : Z := zlen (enc_entry (x_entry p)).
(** positions of target and entry point, without their lengths *)
Definition tpos (p : payload) : Z := bpos p + 16 + xlen p.
Definition epos (p : payload) : Z := bpos p + 22 + xlen p + tlen p.

Lemma zlen_fields p : zlen (enc_fields p) = 24 + xlen p + tlen p + elen p + 19.
Proof.
  unfold enc_fields. rewrite !zlen_app, !zlen_lv, !le_length. unfold xlen, tlen, elen.
  rewrite zlen_table. cbn [List.concat app]. zn. cbn [Z.of_nat Pos.of_succ_nat Pos.succ]. lia.
Qed.

Record bpieces (e : env) (p : payload) : Prop := {
  bc_n : at_ e (bpos p) (le 4 4);
  bc_k0 : at_ e (bpos p + 4) (le 2 0);
  bc_args : at_ e (bpos p + 6) (lv (enc_xargs (x_args p)));
  bc_k1 : at_ e (bpos p + 10 + xlen p) (le 2 1);
  bc_target : at_ e (bpos p + 12 + xlen p) (lv (enc_xtarget (x_target p)));
  bc_k2 : at_ e (bpos p + 16 + xlen p + tlen p) (le 2 2);
  bc_entry : at_ e (bpos p + 18 + xlen p + tlen p) (lv (enc_entry (x_entry p)));
  bc_k3 : at_ e (bpos p + 22 + xlen p + tlen p + elen p) (le 2 3);
  bc_sched : at_ e (bpos p + 24 + xlen p + tlen p + elen p) (lv (table [[0]])) }.
Lemma bpieces_of e p : at_ e (bpos p) (enc_fields p) -> bpieces e p.
Proof.
  intros A. unfold enc_fields in A. rewrite !at_app, !zlen_lv, !le_length in A. cbn [Z.of_nat Pos.of_succ_nat Pos.succ] in A.
  fold (xlen p) (tlen p) (elen p) in A. destruct A as (A1 & A2 & A3 & A4 & A5 & A6 & A7 & A8 & A9).
  constructor; auto;
    match goal with H : at_ e ?x ?l |- at_ e ?y ?l => replace y with x by lia; exact H end.
Qed.
Lemma args_list_at e p : bpieces e p -> at_ e (apos p) (enc_arg_list (named (x_args p))) \/ exists bs, x_args p = Raw bs.
Proof.
  intros Bc. pose proof (bc_args _ _ Bc) as A. destruct (x_args p) as [l|bs]; [left | eauto]. cbn [named].
  apply at_lv in A. destruct A as [_ A]. cbn [enc_xargs] in A. apply (at_app e _ [0]) in A. destruct A as [_ A]. unfold enc_args in A.
  apply at_app in A. destruct A as [_ A]. rewrite le_length in A. unfold apos. cbn [Z.of_nat Pos.of_succ_nat Pos.succ] in A.
  change (zlen [0]) with 1 in A.
  replace (bpos p + 15) with (bpos p + 6 + 4 + 1 + 4) by lia. exact A.
Qed.
Lemma raw_args_at e p bs : bpieces e p -> x_args p = Raw bs -> at_ e (apos p) bs.
Proof.
  intros Bc E. pose proof (bc_args _ _ Bc) as A. rewrite E in A.
  apply at_lv in A. destruct A as [_ A]. cbn [enc_xargs] in A. apply (at_app e _ [1]) in A. destruct A as [_ A].
  apply at_lv in A. destruct A as [_ A]. unfold apos. change (zlen [1]) with 1 in A.
  replace (bpos p + 15) with (bpos p + 6 + 4 + 1 + 4) by lia. exact A.
Qed.
Lemma at_nil e o bs : wf e -> at_ e o bs -> at_ e o [].
Proof. intros W A. apply (at_app e o [] bs). exact A. Qed.
Lemma named_at e p : wf e -> bpieces e p -> at_ e (apos p) (enc_arg_list (named (x_args p))).
Proof.
  intros W Bc. destruct (args_list_at e p Bc) as [A|(bs & E)]; auto.
  rewrite E. cbn [named enc_arg_list List.map List.concat]. eapply at_nil; [auto|]. eapply raw_args_at; eauto.
Qed.

Lemma field_key_at {B} k (f : unit -> P B) e o : wf e -> at_ e o (le 2 k) -> 0 <= k < 65536 -> bind (read_field_key k) f e o = f tt e (o + 2).
Proof.
  intros W A L. unfold read_field_key. rewrite bind_assoc. step (readU16_at _ e _ W A L).
  rewrite step_check by apply Z.eqb_refl. reflexivity.
Qed.
Lemma num_args_obj o a : num_runtime_args (arg_obj o a) = zlen (named a).
Proof. destruct a; reflexivity. Qed.

(** What the sanity check of the arguments says; [tail] decides the rest of
    the body on it. *)
Definition sane (e : env) (p : payload) : outcome unit :=
  fst (check_sanity_native_transfer (arg_obj (bpos p + 6) (x_args p)) (entry_no (x_entry p)) (target_no (x_target p))
         e (epos p + elen p)).
Definition follows {A} (s : outcome unit) (r : outcome A * Z) (v : A) (o : Z) : Prop :=
  match s with
  | Ret _ => r = (Ret v, o)
  | Fail c => exists o', r = (Fail c, o')
  | Undef u => exists o', r = (Undef u, o')
  end.
Lemma sanity_off ao en tn e o v o' : 0 <= o < 65536 -> check_sanity_native_transfer ao en tn e o = (Ret v, o') -> o' = o.
Proof.
  intros Ho. unfold check_sanity_native_transfer. rewrite step_get_off.
  match goal with |- bind ?p (fun _ => bind ?q _) e o = _ -> _ => generalize p, q end. intros p q.
  unfold bind. destruct (p e o) as [[?|?|?] o1]; try discriminate. destruct (q e o1) as [[?|?|?] o2]; try discriminate.
  unfold set_off. cbv beta. rewrite u16_small by lia. intros H. injection H as _ <-. reflexivity.
Qed.
Lemma bind_congr {A B} (p q : P A) (f : A -> P B) e o o1 : p e o = q e o1 -> bind p f e o = bind q f e o1.
Proof. unfold bind. intros ->. reflexivity. Qed.

Lemma body_gen e p :
  wf e -> good_payload p -> at_ e (bpos p) (enc_fields p) ->
  follows (sane e p) (read_txV1_body e (bpos p))
       (arg_obj (bpos p + 6) (x_args p),
               (tgt_obj (tpos p) (x_target p), tgt_items (expert e) (x_target p)),
               (entry_no (x_entry p), name_pos (epos p) (x_entry p), name_len (x_entry p),
                entry_point_items (expert e) (entry_no (x_entry p)) (zlen (named (x_args p)))))
       (bpos p + zlen (enc_fields p)).
Proof.
  intros W G A. pose proof (bpieces_of _ _ A) as Bc. pose proof (at_bound _ _ _ W A) as B. rewrite zlen_fields in *.
  pose proof (zlen_nonneg (enc_xargs (x_args p))) as N1. fold (xlen p) in N1.
  pose proof (zlen_nonneg (enc_xtarget (x_target p))) as N2. fold (tlen p) in N2.
  pose proof (zlen_nonneg (enc_entry (x_entry p))) as N3. fold (elen p) in N3.
  unfold read_txV1_body. step (readU32_at _ e _ W (bc_n _ _ Bc) ltac:(lia)). rewrite step_check by reflexivity.
  rewrite (field_key_at 0 _ _ _ W (bc_k0 _ _ Bc)) by lia.
  replace (bpos p + 4 + 2) with (bpos p + 6) by lia.
  step (args_at _ e _ W (bc_args _ _ Bc) (gx_args _ G)). rewrite zlen_lv. fold (xlen p).
  replace (bpos p + 6 + (4 + xlen p)) with (bpos p + 10 + xlen p) by lia.
  rewrite (field_key_at 1 _ _ _ W (bc_k1 _ _ Bc)) by lia.
  replace (bpos p + 10 + xlen p + 2) with (bpos p + 12 + xlen p) by lia.
  step (target_at _ e _ W (bc_target _ _ Bc) (gx_target _ G)). rewrite zlen_lv. fold (tlen p).
  replace (bpos p + 12 + xlen p + (4 + tlen p)) with (bpos p + 16 + xlen p + tlen p) by lia.
  replace (bpos p + 12 + xlen p + 4) with (tpos p) by (unfold tpos; lia).
  rewrite (field_key_at 2 _ _ _ W (bc_k2 _ _ Bc)) by lia.
  replace (bpos p + 16 + xlen p + tlen p + 2) with (bpos p + 18 + xlen p + tlen p) by lia.
  cbn [fst]. rewrite ttype_obj.
  rewrite (bind_congr _ _ _ e _ _ (entry_steps _ _ (target_no (x_target p)) e _ W (bc_entry _ _ Bc))). rewrite bind_assoc, zlen_lv. fold (elen p).
  replace (bpos p + 18 + xlen p + tlen p + (4 + elen p)) with (epos p + elen p) by (unfold epos; lia).
  rewrite num_args_obj. unfold sane, follows.
  destruct (check_sanity_native_transfer _ _ _ e (epos p + elen p)) as [[u|c|u] o'] eqn:X; cbn [fst].
  - assert (Ho : 0 <= epos p + elen p < 65536) by (unfold epos; lia). pose proof (sanity_off _ _ _ _ _ _ _ Ho X) as ->. destruct u. step X. rewrite step_ret.
    replace (epos p + elen p) with (bpos p + 22 + xlen p + tlen p + elen p) by (unfold epos; lia).
    rewrite (field_key_at 3 _ _ _ W (bc_k3 _ _ Bc)) by lia.
    replace (bpos p + 22 + xlen p + tlen p + elen p + 2) with (bpos p + 24 + xlen p + tlen p + elen p) by lia.
    step (scheduling_at e _ W (bc_sched _ _ Bc)). cbv [ret]. apply pair_ret.
    + replace (bpos p + 18 + xlen p + tlen p + 4) with (epos p) by (unfold epos; lia). reflexivity.
    + rewrite zlen_lv, zlen_table. cbn [List.concat app]. zn. lia.
  - exists o'. apply bind_Fail. exact X.
  - exists o'. unfold bind. rewrite X. reflexivity.
Qed.

(** * The whole transaction *)
Definition tx_items (x : bool) (p : payload) : Z :=
  3 + (if x then 5 else 0) + tgt_items x (x_target p)
  + entry_point_items x (entry_no (x_entry p)) (zlen (named (x_args p))).
Definition tx_obj (x : bool) (t : transaction) : txv1 :=
  let p := x_payload t in
  mkTx (tmeta_of t) (hdr1 p) (pmeta_of p) (entry_no (x_entry p)) (name_pos (epos p) (x_entry p)) (name_len (x_entry p))
       (tgt_obj (tpos p) (x_target p)) (arg_obj (bpos p + 6) (x_args p)) (u8 (tx_items x p)) (zlen (x_approvals t)).

Theorem v1_gen e t :
  tx_at e t ->
  follows (sane e (x_payload t)) (parser_read_transactionV1 e 0) (tx_obj (expert e) t) (zlen (enc_transaction t)).
Proof.
  intros X. pose proof (pieces_of _ _ X) as Pc. pose proof (header_at e t X) as Hd. pose proof (xa_wf _ _ X) as W. pose proof (xa_good _ _ X) as G.
  pose proof (payload_first_at _ _ Pc) as PF.
  pose proof (body_gen e (x_payload t) W (gt_payload _ _ G) (pc_body _ _ Pc)) as Bd.
  assert (ZT : zlen (enc_transaction t) = bpos (x_payload t) + zlen (enc_fields (x_payload t)) + zlen (enc_approvals (x_approvals t))).
  { unfold enc_transaction. rewrite zlen_table. cbn [List.concat]. rewrite app_nil_r, !zlen_app, (pc_hlen _ _ Pc), zlen_payload. zn. lia. }
  pose proof (pc_plen _ _ Pc) as PL. pose proof (pc_size _ _ Pc) as SZ. pose proof (pc_max _ _ Pc) as MX. pose proof (pc_hlen _ _ Pc) as HL.
  cbv zeta in Hd. set (p := x_payload t) in *.
  pose proof (zlen_nonneg (init_bytes (x_initiator p))) as NI. fold (ilen p) in NI. pose proof (zlen_nonneg (x_chain p)) as NC. fold (clen p) in NC.
  pose proof (zlen_nonneg (enc_fields p)) as NF. pose proof (zlen_nonneg (enc_approvals (x_approvals t))) as NA.
  pose proof (zlen_nonneg (enc_pricing (x_pricing p))) as NQ. fold (qlen p) in NQ.
  assert (BP : bpos p = 143 + ilen p + clen p + qlen p) by (unfold bpos; lia).
  assert (F0 : foff (tmeta_of t) 0 = 0) by reflexivity.
  assert (F1 : foff (tmeta_of t) 1 = 32) by (unfold tmeta_of; foffs; lia).
  assert (F2 : foff (tmeta_of t) 2 = 32 + zlen (enc_payload p)) by (unfold tmeta_of; foffs; fold p; lia).
  assert (FS : fields_size (tmeta_of t) = 32 + zlen (enc_payload p) + zlen (enc_approvals (x_approvals t))).
  { unfold tmeta_of; foffs; fold p. rewrite app_nil_r, !zlen_app. lia. }
  assert (MS : metadata_size (tmeta_of t) = 26) by reflexivity.
  assert (P0 : foff (pmeta_of p) 0 = 0) by reflexivity.
  assert (P5 : foff (pmeta_of p) 5 = bpos p - 102).
  { unfold pmeta_of, payload_fields. foffs. rewrite zlen_initiator, zlen_lv, !le_length. fold (ilen p) (clen p) (qlen p). lia. }
  assert (PS : fields_size (pmeta_of p) = bpos p - 102 + zlen (enc_fields p)).
  { unfold pmeta_of, payload_fields. foffs. rewrite app_nil_r, !zlen_app, zlen_initiator, zlen_lv, !le_length. fold (ilen p) (clen p) (qlen p). lia. }
  unfold parser_read_transactionV1. rewrite step_ask, step_check by lia.
  step (metadata_at _ e 0 W (pc_tab _ _ Pc) ltac:(zn; lia)). fold p. fold (tmeta_of t). zn. gz.
  change (meta [x_hash t; enc_payload p; enc_approvals (x_approvals t)]) with (tmeta_of t).
  rewrite MS, F0. rewrite step_field by lia.
  step (read_hash_at e _ _ W (pc_hash _ _ Pc) HL). gz. rewrite F1, step_field by lia.
  step (metadata_at _ e 58 W (pc_pay _ _ Pc) ltac:(unfold payload_fields; zn; lia)). fold p. change (meta (payload_fields p)) with (pmeta_of p).
  change (zlen (payload_fields p)) with 6. gz. rewrite PF. rewrite P0, step_field by lia.
  step Hd. rewrite P5, step_field by lia.
  unfold follows in *. destruct (sane e p) as [u|c|u].
  - step Bd. rewrite PS, step_field by lia. rewrite F2, step_field by lia.
    step (approvals_at _ e _ W (gt_approvals _ _ G) (pc_apps _ _ Pc) (gt_napp _ _ G)). fold p. rewrite FS, step_field by lia.
    rewrite step_ask. cbv [ret]. rewrite ZT. reflexivity.
  - destruct Bd as (o' & Bd). exists o'. apply bind_Fail. exact Bd.
  - destruct Bd as (o' & Bd). exists o'. unfold bind. rewrite Bd. reflexivity.
Qed.

Theorem v1_parse e t :
  tx_at e t -> (match x_entry (x_payload t) with Op _ => apos (x_payload t) < 256 | _ => True end) ->
  if acceptable (x_payload t)
  then parser_read_transactionV1 e 0 = (Ret (tx_obj (expert e) t), zlen (enc_transaction t))
  else exists c o', parser_read_transactionV1 e 0 = (Fail c, o').
Proof.
  intros X Wr. pose proof (v1_gen e t X) as Gn. pose proof (pieces_of _ _ X) as Pc. pose proof (xa_wf _ _ X) as W. pose proof (xa_good _ _ X) as G.
  set (p := x_payload t) in *. pose proof (bpieces_of _ _ (pc_body _ _ Pc)) as Bc. fold p in Bc.
  pose proof (at_bound _ _ _ W (pc_body _ _ Pc)) as B. fold p in B. rewrite zlen_fields in B.
  pose proof (zlen_nonneg (enc_xargs (x_args p))) as N1. fold (xlen p) in N1.
  pose proof (zlen_nonneg (enc_xtarget (x_target p))) as N2. fold (tlen p) in N2.
  pose proof (zlen_nonneg (enc_entry (x_entry p))) as N3. fold (elen p) in N3.
  assert (Y : match x_entry p with Op _ => at_ e (runtime_args_offset (arg_obj (bpos p + 6) (x_args p))) (enc_arg_list (named (x_args p))) | _ => True end).
  { destruct (x_entry p); auto.
    replace (runtime_args_offset (arg_obj (bpos p + 6) (x_args p))) with (apos p); [apply named_at; auto|].
    unfold apos in *. destruct (x_args p); cbn [arg_obj runtime_args_offset]; rewrite u8_small; lia. }
  pose proof (sanity_at (x_args p) (x_entry p) (x_target p) e (epos p + elen p) W ltac:(unfold epos; lia) (gx_args _ (gt_payload _ _ G)) _ (num_args_obj (bpos p + 6) _) Y) as S.
  unfold acceptable, follows, sane in *. fold p in Gn. destruct (callable _ _ && complete _ _).
  - rewrite S in Gn. exact Gn.
  - destruct S as (c & o' & S). rewrite S in Gn. cbn [fst] in Gn. destruct Gn as (o2 & Gn). eauto.
Qed.
