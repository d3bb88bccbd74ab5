(** Reviews of the same TransactionV1 in expert mode and in normal mode. *)
From Verif Require Import Base Zxlib Crypto Utils RuntimeArg Deploy DeployUI TxV1 TxV1UI Parser BaseFacts Spec SpecTx Exec ArgsFacts ReaderFacts RangeFacts BindFacts BindCases OklFacts ModeFacts ModeItems TxAccept SafeFacts TxBody TxInv FormArgs Demo.
Import S SX.

(** * The parsers *)
Lemma xf_field b o : xfree (at_field b o). Proof. unfold at_field. xf. Qed.
Lemma xf_lift {A} (r : outcome A) : xfree (lift r). Proof. intros e o x. reflexivity. Qed.
#[export] Hint Resolve xf_field xf_lift : xf.
Lemma xf_offsets n : forall i, xfree (read_field_offsets n i). Proof. induction n as [|n IH]; intros i; cbn [read_field_offsets]; xf. Qed.
#[export] Hint Resolve xf_offsets : xf.
Lemma xf_meta : xfree read_metadata. Proof. unfold read_metadata. xf. Qed.
Lemma xf_bytes : xfree read_bytes. Proof. unfold read_bytes. xf. Qed.
Lemma xf_string : xfree read_string. Proof. apply xf_bytes. Qed.
Lemma xf_bool : xfree read_bool. Proof. unfold read_bool. xf. Qed.
Lemma xf_hash32 : xfree read_hash. Proof. unfold read_hash. xf. Qed.
Lemma xf_address : xfree read_entity_address. Proof. apply xf_hash32. Qed.
Lemma xf_pk : xfree read_public_key. Proof. unfold read_public_key. xf. Qed.
Lemma xf_sig : xfree read_signature. Proof. unfold read_signature. xf. Qed.
#[export] Hint Resolve xf_meta xf_bytes xf_string xf_bool xf_hash32 xf_address xf_pk xf_sig : xf.
Lemma xf_entver : xfree read_entity_version. Proof. unfold read_entity_version. xf. Qed.
Lemma xf_runtime : xfree read_runtime. Proof. unfold read_runtime. xf. Qed.
Lemma xf_clvalue : xfree read_clvalue. Proof. unfold read_clvalue. xf. Qed.
Lemma xf_key n : xfree (read_field_key n). Proof. unfold read_field_key. xf. Qed.
Lemma xf_scheduling : xfree read_scheduling. Proof. unfold read_scheduling. xf. Qed.
Lemma xf_approvals : xfree read_txV1_approvals. Proof. unfold read_txV1_approvals. xf. Qed.
#[export] Hint Resolve xf_entver xf_runtime xf_clvalue xf_key xf_scheduling xf_approvals : xf.
Lemma xf_readargs : xfree read_args. Proof. unfold read_args, read_arg. xf. Qed.
Lemma xf_header_v1 m pm : xfree (read_txV1_header m pm). Proof. unfold read_txV1_header, read_initiator_address, read_chain_name, read_pricing_mode. xf. Qed.
Lemma xf_must s n a u : xfree (must_have s n a u). Proof. unfold must_have. xf. Qed.
#[export] Hint Resolve xf_readargs xf_header_v1 xf_must : xf.
Lemma xf_sanity a ep t : xfree (check_sanity_native_transfer a ep t). Proof. unfold check_sanity_native_transfer. xf. Qed.
Lemma xf_valid v : xfree (validateTxV1 v). Proof. unfold validateTxV1. xf. Qed.
#[export] Hint Resolve xf_sanity xf_valid : xf.

(** The number of items without the wrap-around of the counter. *)
Definition versioned (t : target) : bool := (ttype t =? TargetStoredByPackageHash) || (ttype t =? TargetStoredByPackageName).
Definition tgt_count (x : bool) (t : target) : Z :=
  if (ttype t =? TargetNative) || (ttype t =? TargetSession) then 0
  else 3 + b2z (versioned t && negb (entity_version t =? NO_ENTITY_VERSION_PRESENT) && x).
Definition counted (x : bool) (v : txv1) : Z :=
  (if x then 8 else 3) + tgt_count x (ttarget v) + entry_point_items x (entry_point_type v) (num_runtime_args (targs v)).
Definition with_num (v : txv1) (n : Z) : txv1 :=
  mkTx (tmeta v) (theader v) (tpayload_meta v) (entry_point_type v) (custom_entry_point v) (custom_entry_point_len v) (ttarget v) (targs v) n (num_approvals v).
(** [v] in expert mode, [w] in normal mode *)
Definition lower (v w : txv1) : Prop := numItems v = u8 (counted true v) /\ w = with_num v (u8 (counted false v)).

Definition tlower (r s : target * Z) : Prop := fst r = fst s /\ snd r = tgt_count true (fst r) /\ snd s = tgt_count false (fst r).
Lemma d_stored : down tlower read_stored read_stored.
Proof.
  unfold read_stored. db. intros e o X. unfold bind at 1 3. unfold ask. rewrite X. cbn [expert with_x].
  revert e o X. change (down tlower
    (o <- get_off ;; if a =? 0 then read_entity_address ;; ret (mkTarget TargetStoredByHash o 0 0, 3)
      else if a =? 1 then len <- read_string ;; ret (mkTarget TargetStoredByName (o + 4) len 0, 3)
      else if a =? 2 then read_entity_address ;; ver <- read_entity_version ;; ret (mkTarget TargetStoredByPackageHash o 0 ver, 3 + b2z (negb (ver =? NO_ENTITY_VERSION_PRESENT) && true))
      else if a =? 3 then len <- read_string ;; ver <- read_entity_version ;; ret (mkTarget TargetStoredByPackageName (o + 4) len ver, 3 + b2z (negb (ver =? NO_ENTITY_VERSION_PRESENT) && true))
      else fail parser_unexpected_value)
    (o <- get_off ;; if a =? 0 then read_entity_address ;; ret (mkTarget TargetStoredByHash o 0 0, 3)
      else if a =? 1 then len <- read_string ;; ret (mkTarget TargetStoredByName (o + 4) len 0, 3)
      else if a =? 2 then read_entity_address ;; ver <- read_entity_version ;; ret (mkTarget TargetStoredByPackageHash o 0 ver, 3 + b2z (negb (ver =? NO_ENTITY_VERSION_PRESENT) && false))
      else if a =? 3 then len <- read_string ;; ver <- read_entity_version ;; ret (mkTarget TargetStoredByPackageName (o + 4) len ver, 3 + b2z (negb (ver =? NO_ENTITY_VERSION_PRESENT) && false))
      else fail parser_unexpected_value)).
  db. destruct (a =? 0); [|destruct (a =? 1); [|destruct (a =? 2); [|destruct (a =? 3); [|intros e o X; split; reflexivity]]]];
    repeat db; apply down_ret; repeat split.
Qed.
Lemma d_target : down tlower read_target read_target.
Proof.
  unfold read_target. do 5 db. destruct (_ =? 0); [db; apply down_ret; repeat split|].
  destruct (_ =? 1); [db; db; eapply down_bind; [exact d_stored|]; intros r s R; db; apply down_ret, R|].
  destruct (_ =? 2); [do 4 db; apply down_ret; repeat split|intros e o X; split; reflexivity].
Qed.
Definition elower (n : Z) (r s : Z * Z * Z * Z) : Prop :=
  fst r = fst s /\ snd r = entry_point_items true (fst (fst (fst r))) n /\ snd s = entry_point_items false (fst (fst (fst r))) n.
Lemma d_entry_v1 a t : down (elower (num_runtime_args a)) (read_entry_point a t) (read_entry_point a t).
Proof.
  unfold read_entry_point. do 8 db. intros e o X. unfold bind at 1 3. unfold ask. rewrite X. cbn [expert with_x].
  match goal with |- same _ (?p e o) (?q _ _) => enough (D : down (elower (num_runtime_args a)) p q) by exact (D e o X) end.
  db. apply down_ret. repeat split.
Qed.
Definition blower (r s : args_v1 * (target * Z) * (Z * Z * Z * Z)) : Prop :=
  fst (fst r) = fst (fst s) /\ tlower (snd (fst r)) (snd (fst s)) /\ elower (num_runtime_args (fst (fst r))) (snd r) (snd s).
Lemma d_body : down blower read_txV1_body read_txV1_body.
Proof.
  unfold read_txV1_body. do 5 db. eapply down_bind; [exact d_target|]. intros t t' T. db.
  replace (ttype (fst t')) with (ttype (fst t)) by (destruct T as [-> _]; reflexivity).
  eapply down_bind; [exact (d_entry_v1 _ _)|]. intros r s E. db. db. apply down_ret. repeat split; try apply T; apply E.
Qed.
Lemma d_v1 : down lower parser_read_transactionV1 parser_read_transactionV1.
Proof.
  unfold parser_read_transactionV1. do 3 db. cbv zeta. do 7 db. eapply down_bind; [exact d_body|].
  intros [[ar [t nt]] [[[ep p] l] ne]] [[ar' [t' nt']] [[[ep' p'] l'] ne']] (E1 & (E2 & E3 & E4) & E5 & E6 & E7). cbn [fst snd] in *. subst ar' t'. injection E5 as <- <- <-.
  do 4 db. intros e o X. unfold bind, ask, ret. rewrite X. cbn [expert with_x]. split; [reflexivity|]. cbn [fst snd].
  split; [change (u8 (3 + 5 + nt + ne) = u8 (8 + tgt_count true t + entry_point_items true ep (num_runtime_args ar))); apply (f_equal u8); lia|].
  unfold with_num, counted. cbn [tmeta theader tpayload_meta entry_point_type custom_entry_point custom_entry_point_len ttarget targs num_approvals]. f_equal. apply (f_equal u8). lia.
Qed.

(** Facts about the object. *)
Ltac in16s W := repeat match goal with X : ?p ?e ?o = (Ret _, ?o') |- _ =>
  lazymatch goal with I : in16 o' |- _ => fail | _ => idtac end; assert (in16 o') by (eapply (safe_ok p e o); [eauto with safe|exact W|assumption|exact X]) end.
Lemma args_count e o a o' : wf e -> in16 o -> read_args e o = (Ret a, o') -> 0 <= num_runtime_args a /\ 0 <= runtime_args_offset a < 256.
Proof.
  intros W I H. unfold read_args in H. bx H vl o1 R. bx H tag o2 T. assert (I1 : in16 o1) by (in16s W; assumption). assert (I2 : in16 o2) by (in16s W; assumption).
  destruct (tag =? 0); [|destruct (tag =? 1); [|discriminate H]].
  - bx H n o3 Rn. apply readU32_inv in Rn; auto. destruct Rn as (Rn & _). pinv. cbn. unfold u8. lia.
  - pinv. cbn. unfold u8. lia.
Qed.
Lemma v1_args e v o' : wf e -> parser_read_transactionV1 e 0 = (Ret v, o') -> 0 <= num_runtime_args (targs v) /\ 0 <= runtime_args_offset (targs v) < 256.
Proof.
  intros W H. assert (I : in16 0) by (unfold in16; lia). unfold parser_read_transactionV1 in H. cbv zeta in H.
  bx H n o1 X1. bx H c o2 X2. bx H m o3 X3. bx H f0 o4 X4. bx H h o5 X5. bx H f1 o6 X6. bx H pm o7 X7. bx H f2 o8 X8. bx H hd o9 X9. bx H f3 o10 X10.
  bx H b o11 B. assert (J : in16 o10) by (in16s W; assumption). clear X1 X2 X3 X4 X5 X6 X7 X8 X9 X10 n c f0 h f1 f2 f3.
  bx H g1 o12 Y1. bx H g2 o13 Y2. bx H na o14 Y3. bx H g3 o15 Y4. bx H x o16 Y5.
  destruct b as [[a [t nt]] [[[ep p] l] ne]]. apply ret_inv in H. destruct H as [-> _]. cbn [targs]. clear Y1 Y2 Y3 Y4 Y5.
  unfold read_txV1_body in B. bx B n p1 X1. bx B c p2 X2. bx B k p3 X3. bx B a' p4 X4. assert (K : in16 p3) by (in16s W; assumption).
  clear X1 X2 X3. repeat (apply bind_inv in B; destruct B as (? & ? & ? & B)). apply ret_inv in B. destruct B as [B _]. inversion B; subst. eapply args_count; eauto.
Qed.

(** * The names that are there *)
Definition found (n : nat) (e : env) (o : Z) (k : list Z) : Prop := exists r o', iter_loop n (getData_body k) tt e o = (Ret (Done r), o').
Lemma getData_found k n e o r o' : getData k n e o = (Ret r, o') -> found (Z.to_nat n) e o k.
Proof. unfold getData. intros H. bx H f o1 L. rewrite loop_iter in L. destruct f; [discriminate H|]. exists r0, o1. exact L. Qed.
Lemma unnamed_few {A} (f : A -> bool) (l : list A) : NoDup l -> (forall a b, f a = true -> f b = true -> a = b) ->
  (List.length l <= 1 + List.length (filter (fun a => negb (f a)) l))%nat.
Proof.
  intros N U. induction N as [|a l Ha N IH]; cbn; [lia|]. destruct (f a) eqn:E; cbn [negb]; [|cbn; lia].
  replace (filter (fun b => negb (f b)) l) with l; [lia|]. clear IH N. induction l as [|b l IH]; [reflexivity|]. cbn. cbn in Ha.
  destruct (f b) eqn:F; [exfalso; apply Ha; left; apply U; auto|]. cbn. f_equal. apply IH. tauto.
Qed.
Lemma found_count : forall n e o ks, NoDup ks -> Forall (found n e o) ks -> (List.length ks <= n)%nat.
Proof.
  induction n as [|n IH]; intros e o ks N F.
  - destruct F as [|k ks (r & o' & H) F]; [cbn; lia|]. cbn in H. discriminate H.
  - destruct (copy_item_into_charbuffer 300 e o) as [[name|c|u] o1] eqn:C.
    2,3: destruct F as [|k ks (r & o' & H) F]; [cbn; lia|]; cbn [iter_loop] in H; unfold getData_body in H; unfold bind in H; rewrite C in H; discriminate H.
    pose proof (unnamed_few (name_is name) ks N) as U. apply Nat.le_trans with (1 := U ltac:(intros a b A B; unfold name_is in *; apply list_eqb_eq in A; apply list_eqb_eq in B; congruence)). clear U.
    set (ks' := filter _ ks). apply le_n_S.
    assert (G : forall k, In k ks' -> exists f o2 r o', (parse_item ;; get_type 0 ;; ret (@Next unit (Z * Z) tt)) e o1 = (Ret f, o2) /\ iter_loop n (getData_body k) tt e o2 = (Ret (Done r), o')).
    { intros k I. apply filter_In in I. destruct I as [I E]. rewrite Forall_forall in F. destruct (F k I) as (r & o' & H). cbn [iter_loop] in H.
      bx H f o2 Q. unfold getData_body in Q. rewrite (bind_Ret _ _ _ _ _ _ C) in Q. destruct (name_is name k); [discriminate E|].
      exists f, o2, r, o'. split; [exact Q|]. assert (f = Next tt) as -> by (clear - Q; pinv; reflexivity). exact H. }
    destruct ks' as [|k0 kr] eqn:EK; [cbn; lia|]. destruct (G k0 (or_introl eq_refl)) as (f & o2 & _ & _ & Q & _).
    apply (IH e o2); [subst ks'; rewrite <- EK; apply NoDup_filter, N|]. rewrite Forall_forall. intros k I. destruct (G k I) as (f' & o2' & r & o' & Q' & H').
    rewrite Q in Q'. injection Q' as <- <-. exists r, o'. exact H'.
Qed.

(** * The items *)
Lemma xf_mem : xfree (ask mem). Proof. intros e o x. reflexivity. Qed.
#[export] Hint Resolve xf_mem : xf.
Lemma xf_text_at o n : xfree (text_at o n). Proof. unfold text_at. apply xf_bind; [xf|]. intros m. cbv zeta. repeat match goal with |- context [if ?b then _ else _] => destruct b end; xf. Qed.
#[export] Hint Resolve xf_text_at : xf.
Lemma xf_show_text k o n : xfree (show_text k o n). Proof. unfold show_text. xf. Qed.
Lemma xf_dechash o : xfree (show_hash_decimal o). Proof. unfold show_hash_decimal. xf. Qed.
Lemma xf_custom_hash v : xfree (show_custom_args_hash v). Proof. unfold show_custom_args_hash. xf. Qed.
Lemma xf_exists s a n : xfree (exists_arg s a n). Proof. unfold exists_arg. xf. Qed.
Lemma xf_first k o : xfree (show_first_byte k o). Proof. unfold show_first_byte. xf. Qed.
Lemma xf_vhash k o n : xfree (show_value_hash k o n). Proof. unfold show_value_hash. xf. Qed.
#[export] Hint Resolve xf_show_text xf_dechash xf_custom_hash xf_exists xf_first xf_vhash : xf.

(** Is there an argument called "source"? *)
Definition has_source (e : env) (v : txv1) : bool :=
  match fst (getData (str "source") (num_runtime_args (targs v)) e (runtime_args_offset (targs v))) with Ret _ => true | _ => false end.
(** Where the item [j] of the body is found in expert mode. *)
Definition body_place (src : bool) (v : txv1) (j : Z) : Z :=
  if entry_point_type v =? EntryPointCustom then (if versioned (ttarget v) && (2 <=? j) then j + 1 else j)
  else if entry_point_type v =? EntryPointTransfer then (if src then j + 1 else j) else j.
Definition v1_place (src : bool) (v : txv1) (i : Z) : Z := if i <? 4 then i else 8 + body_place src v (i - 4).

Definition clear_version (t : target) : Prop := versioned t = true -> entity_version t <> NO_ENTITY_VERSION_PRESENT.
Definition body_count (x : bool) (v : txv1) : Z := tgt_count x (ttarget v) + entry_point_items x (entry_point_type v) (num_runtime_args (targs v)) - 1.

Lemma custom_down v e o j : expert e = true -> entry_point_type v = EntryPointCustom -> numItems v = 9 + body_count true v -> clear_version (ttarget v) ->
  0 <= j < body_count false v ->
  fst (getItem_Custom (with_num v (4 + body_count false v)) j (with_x e false) o) = fst (getItem_Custom v (body_place false v j) e o).
Proof.
  intros X E N CV J. unfold getItem_Custom, body_place. rewrite !step_ask. cbn [expert with_x]. rewrite X, E, N. cbv zeta.
  set (w := with_num v (4 + body_count false v)). change (numItems w) with (4 + body_count false v). change (ttarget w) with (ttarget v).
  change (custom_entry_point w) with (custom_entry_point v). change (custom_entry_point_len w) with (custom_entry_point_len v). change (show_custom_args_hash w) with (show_custom_args_hash v).
  clear w. unfold body_count in *. rewrite E in *.
  change (entry_point_items true EntryPointCustom (num_runtime_args (targs v))) with 2. change (entry_point_items false EntryPointCustom (num_runtime_args (targs v))) with 2 in *.
  change (EntryPointCustom =? EntryPointCustom) with true. cbv iota. clear X E N.
  unfold tgt_count, clear_version, versioned in *. destruct (ttarget v) as [ty ptr nl ver]. cbn [ttype tptr tname_len entity_version] in *.
  destruct (Z.eqb_spec ty TargetStoredByPackageHash) as [->|H3]; [|destruct (Z.eqb_spec ty TargetStoredByPackageName) as [->|H4]].
  1,2: assert (V : ver <> NO_ENTITY_VERSION_PRESENT) by (apply CV; reflexivity); apply Z.eqb_neq in V; rewrite V; clear CV;
    change ((TargetStoredByPackageHash =? TargetNative) || (TargetStoredByPackageHash =? TargetSession)) with false in *;
    change ((TargetStoredByPackageName =? TargetNative) || (TargetStoredByPackageName =? TargetSession)) with false in *;
    cbv iota in *; rewrite V in J; cbn [orb andb negb b2z Z.add Pos.add] in *;
    assert (D : j = 0 \/ j = 1 \/ j = 2 \/ j = 3) by lia;
    destruct D as [->|[->|[->| ->]]]; repeat rewrite step_check by reflexivity; cbn [andb orb negb Z.leb Z.compare Pos.compare Pos.compare_cont Z.add Pos.add Pos.succ Z.eqb Pos.eqb];
    try reflexivity; match goal with |- fst (?p _ _) = _ => assert (K : xfree p) by xf; rewrite K; reflexivity end.
  cbn [orb andb] in *. rewrite !Z.add_0_r in *.
  match goal with |- context [if ?b then 0 else 3] => set (c := if b then 0 else 3) in *; assert (0 <= c <= 3) by (subst c; destruct b; lia) end.
  rewrite !step_check by (rewrite u32_small; lia).
  match goal with |- fst (?p _ _) = _ => assert (K : xfree p) by xf; rewrite K; reflexivity end.
Qed.

Lemma transfer_down n e o j d : expert e = true -> 0 <= o < 65536 -> j = 0 \/ j = 1 -> j + d < n -> 1 < n ->
  (d = 1 /\ (exists r o', getData (str "source") n e o = (Ret r, o')) \/ d = 0 /\ (exists o', getData (str "source") n e o = (Fail parser_no_data, o'))) ->
  fst (getItem_txV1_Transfer n j (with_x e false) o) = fst (getItem_txV1_Transfer n (j + d) e o).
Proof.
  intros X Ho J Jn N1 D. unfold getItem_txV1_Transfer. rewrite !step_get_off, !step_check, !step_ask by lia. cbn [expert with_x]. rewrite X. cbv zeta iota.
  assert (T : forall (k : ((Z * Z) + Z) -> P item), bind (try (getData (str "source") n)) k e o =
    match getData (str "source") n e o with (Ret r, o') => k (inl r) e o' | (Fail c, o') => k (inr c) e o' | (Undef u, o') => (Undef u, o') end).
  { intros k. unfold bind, try. destruct (getData (str "source") n e o) as [[r|c|u] o']; reflexivity. }
  destruct D as [[-> (r & o' & G)]|[-> (o' & G)]]; rewrite T, G.
  - replace (j + 1 =? 0) with false by lia. rewrite step_set_off by exact Ho.
    destruct J as [->| ->]; cbn [Z.add Pos.add Pos.succ Z.eqb Pos.eqb andb orb negb]; [rewrite xf_show_arg|rewrite xf_show_motes]; reflexivity.
  - change (parser_no_data =? parser_no_data) with true. cbv iota. rewrite step_set_off by exact Ho. rewrite Z.add_0_r.
    destruct J as [->| ->]; cbn [Z.add Pos.add Pos.succ Z.eqb Pos.eqb andb orb negb]; [rewrite xf_show_arg|rewrite xf_show_motes]; reflexivity.
Qed.

(** The rest is shown alike in both modes. *)
Lemma xf_ops n j : xfree (getItem_AddBid n j) /\ xfree (getItem_WithdrawBid n j) /\ xfree (getItem_Delegate n j) /\ xfree (getItem_Redelegate n j) /\ xfree (getItem_ActivateBid n j) /\
  xfree (getItem_ChangePublicKey n j) /\ xfree (getItem_AddReservations j) /\ xfree (getItem_CancelReservations j) /\ xfree (getItem_Burn n j).
Proof.
  assert (XD : forall t k, xfree (display_runtimeArg t k)) by (intros; unfold display_runtimeArg; xf).
  unfold getItem_AddBid, getItem_WithdrawBid, getItem_Delegate, getItem_Redelegate, getItem_ActivateBid, getItem_ChangePublicKey, getItem_AddReservations, getItem_CancelReservations, getItem_Burn.
  repeat split; cbv zeta; xf.
Qed.

Record mates (e : env) (v : txv1) : Prop := {
  m_args : 0 <= num_runtime_args (targs v) < 240 /\ 0 <= runtime_args_offset (targs v) < 256;
  m_clear : clear_version (ttarget v);
  m_native : entry_point_type v <> EntryPointCustom -> tgt_count true (ttarget v) = 0 /\ tgt_count false (ttarget v) = 0;
  m_transfer : entry_point_type v = EntryPointTransfer -> (if has_source e v then 2 else 1) < num_runtime_args (targs v) /\
    (has_source e v = false -> exists o', getData (str "source") (num_runtime_args (targs v)) e (runtime_args_offset (targs v)) = (Fail parser_no_data, o')) }.

Lemma tgt_range x t : 0 <= tgt_count x t <= 4.
Proof. unfold tgt_count, b2z. repeat match goal with |- context [if ?b then _ else _] => destruct b end; lia. Qed.
Lemma entry_range x ep n : 0 <= n < 240 -> 1 <= entry_point_items x ep n <= 240.
Proof. intros. unfold entry_point_items. repeat match goal with |- context [if ?b then _ else _] => destruct b end; lia. Qed.
Lemma body_places e v : mates e v ->
  (forall j, 0 <= j < body_count false v -> 0 <= body_place (has_source e v) v j < body_count true v) /\
  (forall i j, 0 <= i < j -> body_place (has_source e v) v i < body_place (has_source e v) v j).
Proof.
  intros [A C N T]. unfold body_place, body_count. split.
  - intros j Hj. destruct (Z.eqb_spec (entry_point_type v) EntryPointCustom) as [E|E].
    + rewrite E in *. cbn in *. unfold tgt_count, clear_version in *. destruct (_ || _) eqn:TT.
      * replace (versioned (ttarget v)) with false; [cbn [andb]; lia|]. unfold versioned. change TargetNative with 0 in TT. change TargetSession with 5 in TT. change TargetStoredByPackageHash with 3. change TargetStoredByPackageName with 4. lia.
      * destruct (versioned (ttarget v)); cbn [andb negb b2z] in *; [|lia]. specialize (C eq_refl). apply Z.eqb_neq in C. rewrite C in *. cbn [andb negb b2z] in *. destruct (2 <=? j) eqn:J2; lia.
    + destruct (N E) as [N1 N2]. rewrite N1, N2 in *. destruct (Z.eqb_spec (entry_point_type v) EntryPointTransfer) as [E2|E2].
      * rewrite E2 in *. destruct (T eq_refl) as [T1 _].
        change (entry_point_items false EntryPointTransfer (num_runtime_args (targs v))) with 3 in Hj. change (entry_point_items true EntryPointTransfer (num_runtime_args (targs v))) with (1 + num_runtime_args (targs v)). destruct (has_source e v); lia.
      * apply Z.eqb_neq in E2. unfold entry_point_items in *. rewrite E2 in *. lia.
  - clear. intros i j H. destruct (_ =? EntryPointCustom); [|destruct (_ =? EntryPointTransfer); [destruct (has_source e v); lia|lia]].
    destruct (versioned (ttarget v)); cbn [andb]; [|lia]. destruct (Z.leb_spec 2 i), (Z.leb_spec 2 j); lia.
Qed.
Lemma args_down e v o j : expert e = true -> mates e v -> numItems v = 9 + body_count true v -> 0 <= j < body_count false v ->
  fst (getItem_args (with_num v (4 + body_count false v)) j (with_x e false) o) = fst (getItem_args v (body_place (has_source e v) v j) e o).
Proof.
  intros X M N J. pose proof M as [A C NT T]. unfold getItem_args.
  change (entry_point_type (with_num v (4 + body_count false v))) with (entry_point_type v). change (targs (with_num v (4 + body_count false v))) with (targs v). cbv zeta.
  rewrite !run_set. rewrite u16_small by lia.
  destruct (Z.eqb_spec (entry_point_type v) EntryPointCustom) as [E|E].
  { rewrite (custom_down v e _ j X E N C J). unfold body_place. rewrite E. reflexivity. }
  unfold body_place. rewrite (proj2 (Z.eqb_neq _ _) E). cbv iota.
  destruct (Z.eqb_spec (entry_point_type v) EntryPointTransfer) as [E2|E2].
  { destruct (T E2) as [T1 T2]. destruct (NT E) as [_ N0]. unfold body_count in J. rewrite N0, E2 in J. change (entry_point_items false EntryPointTransfer (num_runtime_args (targs v))) with 3 in J.
    replace (if has_source e v then j + 1 else j) with (j + (if has_source e v then 1 else 0)) by (destruct (has_source e v); lia).
    apply transfer_down; auto; try lia; [destruct (has_source e v); lia..|].
    unfold has_source in *. destruct (getData _ _ _ _) as [[r|c|u] o'] eqn:G; cbn [fst] in *; [left; eauto|right..]; (split; [reflexivity|]); destruct (T2 eq_refl) as (o2 & T3); exists o2; exact T3. }
  destruct (xf_ops (num_runtime_args (targs v)) j) as (X1 & X2 & X3 & X4 & X5 & X6 & X7 & X8 & X9).
  repeat match goal with |- context [if ?b then _ else _] => destruct b end; first [rewrite X1|rewrite X2|rewrite X3|rewrite X4|rewrite X5|rewrite X6|rewrite X7|rewrite X8|rewrite X9|idtac]; reflexivity.
Qed.

Lemma body_range x e v : mates e v -> 0 <= body_count x v <= 243.
Proof. intros [[A _] _ _ _]. unfold body_count. pose proof (tgt_range x (ttarget v)). pose proof (entry_range x (entry_point_type v) _ A). lia. Qed.
Lemma xf_index_v1 v p : xfree (index_headerpart_txnV1 v p). Proof. unfold index_headerpart_txnV1. xf. Qed.
#[export] Hint Resolve xf_index_v1 : xf.
Lemma item_down_v1 e v idx o : expert e = true -> mates e v -> numItems v = 9 + body_count true v -> 0 <= idx < 4 + body_count false v ->
  fst (getItemTxV1 (with_num v (4 + body_count false v)) idx (with_x e false) o) = fst (getItemTxV1 v (v1_place (has_source e v) v idx) e o).
Proof.
  intros X M N Hi. pose proof (body_range true e v M) as BT. pose proof (body_range false e v M) as BF. destruct (body_places e v M) as [PB _].
  unfold getItemTxV1. rewrite N. change (numItems (with_num v (4 + body_count false v))) with (4 + body_count false v). cbv zeta.
  assert (PR : 0 <= v1_place (has_source e v) v idx < 9 + body_count true v).
  { unfold v1_place. destruct (Z.ltb_spec idx 4); [lia|]. specialize (PB (idx - 4) ltac:(lia)). lia. }
  rewrite !step_check by lia. rewrite !step_ask. cbn [expert with_x]. rewrite X. clear PR.
  unfold v1_place. destruct (Z.ltb_spec idx 4) as [L|L].
  - assert (D : idx = 0 \/ idx = 1 \/ idx = 2 \/ idx = 3) by lia.
    destruct D as [->|[->|[->| ->]]]; cbn [Z.eqb Pos.eqb];
      match goal with |- fst (?p _ _) = _ => assert (K : xfree p) by (cbn [tmeta theader with_num]; xf); rewrite K; reflexivity end.
  - specialize (PB (idx - 4) ltac:(lia)). pose proof (args_down e v o (idx - 4) X M N ltac:(lia)) as AD.
    set (q := body_place (has_source e v) v (idx - 4)) in *.
    replace (idx =? 0) with false by lia. replace (idx =? 1) with false by lia. replace (idx =? 2) with false by lia. replace (idx =? 3) with false by lia. cbn [andb].
    replace (8 + q =? 0) with false by lia. replace (8 + q =? 1) with false by lia. replace (8 + q =? 2) with false by lia. replace (8 + q =? 3) with false by lia.
    replace (8 + q =? 4) with false by lia. replace (8 + q =? 5) with false by lia. change pricing_mode_items with 2. replace (8 + q <? 6 + 2) with false by lia.
    rewrite (u8_small (idx + 2 + 2)) by lia. rewrite !u16_small by lia.
    replace ((8 <=? idx + 2 + 2) && (idx + 2 + 2 <? 8 + (4 + body_count false v - (2 + 2)))) with true by lia.
    replace ((8 <=? 8 + q) && (8 + q <? 8 + (9 + body_count true v - 9))) with true by lia.
    replace (idx + 2 + 2 - 8) with (idx - 4) by lia. replace (8 + q - 8) with q by lia. exact AD.
Qed.

(** * Every accepted TransactionV1 *)
Lemma expert_covers_v1_any pf data v : hash32 (p_hash pf) -> bytes data -> zlen data < 65535 ->
  tx_parse pf true (1 :: data) = Ret (TV1 v) -> num_runtime_args (targs v) < 240 -> clear_version (ttarget v) ->
  exists w (place : Z -> Z), tx_parse pf false (1 :: data) = Ret (TV1 w) /\
    (forall i j, 0 <= i < j -> j < getNumItems false (TV1 w) -> place i < place j) /\
    forall i, 0 <= i < getNumItems false (TV1 w) -> 0 <= place i < getNumItems true (TV1 v) /\
      forall kl, tx_getItem pf false kl (1 :: data) (TV1 w) i = tx_getItem pf true kl (1 :: data) (TV1 v) (place i).
Proof.
  intros Hh B L H Fw CV. destruct (accept_inv pf true 1 data (TV1 v) L H) as (Hn & q1 & q2 & its & q3 & u & C & V & IT).
  assert (W : wf (ctx_of pf true false 40 data (zlen data))) by (apply wf_ctx; auto; lia).
  set (e := ctx_of pf true false 40 data (zlen data)) in *. apply content_v1 in C. destruct C as [_ C].
  pose proof (d_v1 e 0 eq_refl) as D. rewrite C in D. destruct (parser_read_transactionV1 (with_x e false) 0) as [[w|c|uu] q] eqn:RW; destruct D as [Eq D]; cbn [fst snd] in *; try contradiction. subst q.
  destruct D as [NV NW]. destruct (v1_args e v q1 W C) as [A1 A2]. destruct (v1_inv e v q1 W C) as (_ & KD & _).
  assert (NT : entry_point_type v <> EntryPointCustom -> tgt_count true (ttarget v) = 0 /\ tgt_count false (ttarget v) = 0).
  { intros E. unfold tgt_count. unfold kind in KD. destruct (ttype (ttarget v) =? TargetNative); [auto|]. destruct (ttype (ttarget v) =? TargetSession); [auto|]. exfalso. apply E, KD. reflexivity. }
  assert (TR : entry_point_type v = EntryPointTransfer -> (if has_source e v then 2 else 1) < num_runtime_args (targs v)).
  { intros E. destruct (v1_sane e 0 v q1 C) as (s1 & s2 & S). rewrite E in S. change EntryPointTransfer with (entry_no (Op NTransfer)) in S.
    assert (RO : 0 <= runtime_args_offset (targs v) < 65536) by lia.
    destruct (sane_has _ _ _ _ _ _ "amount" true RO S ltac:(cbn; auto)) as (d1 & r1 & G1 & _).
    destruct (sane_has _ _ _ _ _ _ "target" false RO S ltac:(cbn; auto)) as (d2 & r2 & G2 & _).
    apply getData_found in G1. apply getData_found in G2. unfold has_source.
    destruct (getData (str "source") (num_runtime_args (targs v)) e (runtime_args_offset (targs v))) as [[r|c|uu] o'] eqn:G3; cbn [fst].
    - apply getData_found in G3.
      assert (F : (List.length [text "amount"; text "target"; str "source"] <= Z.to_nat (num_runtime_args (targs v)))%nat).
      { eapply found_count; [|repeat constructor; eassumption]. repeat constructor; cbn; intuition discriminate. }
      cbn in F. lia.
    - assert (F : (List.length [text "amount"; text "target"] <= Z.to_nat (num_runtime_args (targs v)))%nat) by (eapply found_count; [|repeat constructor; eassumption]; repeat constructor; cbn; intuition discriminate).
      cbn in F. lia.
    - assert (F : (List.length [text "amount"; text "target"] <= Z.to_nat (num_runtime_args (targs v)))%nat) by (eapply found_count; [|repeat constructor; eassumption]; repeat constructor; cbn; intuition discriminate).
      cbn in F. lia. }
  assert (BC : forall x, counted x v = (if x then 9 else 4) + body_count x v) by (intros x; unfold counted, body_count; destruct x; lia).
  assert (RB : forall x, 0 <= body_count x v <= 243).
  { intros x. unfold body_count. pose proof (tgt_range x (ttarget v)). pose proof (entry_range x (entry_point_type v) (num_runtime_args (targs v)) ltac:(lia)). lia. }
  rewrite BC in NV, NW. rewrite u8_small in NV, NW by (pose proof (RB true); pose proof (RB false); lia).
  assert (KI : forall i o, 0 <= i < numItems v -> exists it, fst (getItemTxV1 v i e o) = Ret it).
  { intros i o Hi. cbn [getNumItems] in IT. destruct (items_nth _ _ _ _ _ _ _ IT) as [_ K]. destruct (K (Z.to_nat i) ltac:(lia)) as (it & o1 & o2 & _ & G).
    rewrite Z2Nat.id, Z.add_0_l in G by lia. cbn [getItem] in G. exists it. rewrite (v1_any_off v i e o o1), G. reflexivity. }
  assert (M : mates e v).
  { constructor; [lia|exact CV|exact NT|]. intros E. split; [exact (TR E)|]. intros HS. specialize (TR E). rewrite HS in TR.
    assert (BT : body_count true v = num_runtime_args (targs v)).
    { unfold body_count. destruct (NT ltac:(rewrite E; discriminate)) as [-> _]. rewrite E. change (entry_point_items true EntryPointTransfer (num_runtime_args (targs v))) with (1 + num_runtime_args (targs v)). lia. }
    destruct (KI 8 0 ltac:(lia)) as (it & G). unfold getItemTxV1 in G. rewrite NV, BT in G. cbv zeta in G. rewrite step_check, step_ask in G by lia.
    change (expert e) with true in G. cbn [Z.eqb Pos.eqb andb Z.ltb Z.compare Pos.compare Pos.compare_cont] in G. change (8 <? 6 + pricing_mode_items) with false in G. cbv iota in G.
    replace ((8 <=? 8) && (8 <? 8 + u16 (9 + num_runtime_args (targs v) - 9))) with true in G by (rewrite u16_small; lia).
    unfold getItem_args in G. rewrite E in G. cbv zeta in G. rewrite run_set, u16_small in G by lia. change (EntryPointTransfer =? EntryPointCustom) with false in G. change (EntryPointTransfer =? EntryPointTransfer) with true in G. cbv iota in G.
    unfold getItem_txV1_Transfer in G. rewrite step_get_off, step_check, step_ask in G by lia. change (expert e) with true in G. cbv zeta iota in G.
    unfold has_source in HS. unfold bind, try in G. destruct (getData (str "source") (num_runtime_args (targs v)) e (runtime_args_offset (targs v))) as [[r|c|uu] o'] eqn:G3; [discriminate HS| |discriminate G].
    destruct (Z.eqb_spec c parser_no_data) as [->|Nc]; [eauto|discriminate G]. }
  destruct (body_places e v M) as [PB PM].
  assert (ID : forall i o, 0 <= i < 4 + body_count false v -> fst (getItemTxV1 w i (with_x e false) o) = fst (getItemTxV1 v (v1_place (has_source e v) v i) e o)).
  { intros i o Hi. rewrite NW. apply item_down_v1; auto. }
  assert (PR : forall i, 0 <= i < 4 + body_count false v -> 0 <= v1_place (has_source e v) v i < numItems v).
  { intros i Hi. rewrite NV. pose proof (RB true). unfold v1_place. destruct (Z.ltb_spec i 4); [lia|]. specialize (PB (i - 4) ltac:(lia)). lia. }
  exists w, (v1_place (has_source e v) v). cbn [getNumItems]. assert (NW' : numItems w = 4 + body_count false v) by (rewrite NW; reflexivity). rewrite NW'. split; [|split].
  - unfold tx_parse. rewrite zlen_cons, u16_small by lia. replace (1 + zlen data - 1) with (zlen data) by lia.
    replace (1 + zlen data =? 0) with false by lia. replace (1 + zlen data =? 1) with false by lia.
    change (ctx_of pf false false 40 data (zlen data)) with (with_x e false).
    assert (VW : validateTxV1 w (with_x e false) q1 = (Ret u, q2)) by (rewrite xf_valid, NW; exact V).
    assert (PC : parse_content 1 (with_x e false) 0 = (Ret (TV1 w), q1)).
    { unfold parse_content. change (1 =? content_Deploy) with false. change (1 =? content_TransactionV1) with true. cbv iota. rewrite (bind_Ret _ _ _ _ _ _ RW). reflexivity. }
    rewrite (bind_Ret _ _ _ _ _ _ PC).
    destruct (items_all (TV1 w) (with_x e false) (Z.to_nat (numItems w)) 0 q2) as (wts & IW).
    { intros k o Hk. rewrite Z2Nat.id in Hk by (specialize (RB false); lia). cbn [getItem]. rewrite ID by lia. apply KI, PR. lia. }
    assert (PV : fst (parser_validate (TV1 w) (with_x e false) q1) = Ret wts).
    { unfold parser_validate. rewrite (bind_Ret _ _ _ _ _ _ VW), step_ask. exact IW. }
    destruct (parser_validate (TV1 w) (with_x e false) q1) as [r ow] eqn:PE. cbn [fst] in PV. subst r.
    rewrite (bind_Ret _ _ _ _ _ _ PE). reflexivity.
  - intros i j Hij Hj. unfold v1_place. destruct (Z.ltb_spec i 4), (Z.ltb_spec j 4); try lia.
    + specialize (PB (j - 4) ltac:(lia)). lia.
    + specialize (PM (i - 4) (j - 4) ltac:(lia)). lia.
  - intros i Hi. split; [apply PR; exact Hi|]. intros kl. rewrite (tx_item_v1 pf false kl data w i 0 L), (tx_item_v1 pf true kl data v _ 0 L).
    change (ctx_of pf false false 40 data (zlen data)) with (with_x e false). apply ID. exact Hi.
Qed.
Lemma expert_covers_v1_bytes pf data v : hash32 (p_hash pf) -> bytes data -> zlen data < 65535 ->
  tx_parse pf true (1 :: data) = Ret (TV1 v) -> num_runtime_args (targs v) < 240 ->
  (ttype (ttarget v) = TargetStoredByPackageHash \/ ttype (ttarget v) = TargetStoredByPackageName -> entity_version (ttarget v) <> NO_ENTITY_VERSION_PRESENT) ->
  exists w (place : Z -> Z), tx_parse pf false (1 :: data) = Ret (TV1 w) /\
    (forall i j, 0 <= i < j -> j < getNumItems false (TV1 w) -> place i < place j) /\
    forall i, 0 <= i < getNumItems false (TV1 w) -> 0 <= place i < getNumItems true (TV1 v) /\
      forall kl, tx_getItem pf false kl (1 :: data) (TV1 w) i = tx_getItem pf true kl (1 :: data) (TV1 v) (place i).
Proof.
  intros Hh B L H N V. apply expert_covers_v1_any; auto. intros E. apply V. unfold versioned in E. apply Bool.orb_true_iff in E. rewrite !Z.eqb_eq in E. exact E.
Qed.
