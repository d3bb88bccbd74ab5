(** Displaying a deploy does not depend on the size of the key buffer. *)
From Verif Require Import Base Zxlib Crypto Utils RuntimeArg Deploy DeployUI TxV1 TxV1UI Parser BaseFacts Spec Exec ArgsFacts ReaderFacts RangeFacts BindFacts.
Import S.

Definition with_kl (e : env) (k : Z) : env :=
  mkEnv (mem e) (blen e) (hi16 e) (expert e) (wasm e) k (hash e) (timefmt e).
Definition klfree {A} (p : P A) : Prop := forall e k o, p (with_kl e k) o = p e o.

Lemma kl_const {A} (f : Z -> outcome A * Z) : klfree (fun _ o => f o). Proof. intros e k o; reflexivity. Qed.
Lemma kl_ret {A} (a : A) : klfree (ret a). Proof. intros e k o; reflexivity. Qed.
Lemma kl_fail {A} x : klfree (@fail A x). Proof. intros e k o; reflexivity. Qed.
Lemma kl_undef {A} x : klfree (@undef A x). Proof. intros e k o; reflexivity. Qed.
Lemma kl_ask {A} (f : env -> A) : (forall e k, f (with_kl e k) = f e) -> klfree (ask f).
Proof. intros F e k o. unfold ask. rewrite F. reflexivity. Qed.
Lemma kl_get_off : klfree get_off. Proof. intros e k o; reflexivity. Qed.
Lemma kl_set_off x : klfree (set_off x). Proof. intros e k o; reflexivity. Qed.
Lemma kl_check b x : klfree (check b x). Proof. intros e k o; unfold check; destruct b; reflexivity. Qed.
Lemma kl_require b x : klfree (require b x). Proof. intros e k o; unfold require; destruct b; reflexivity. Qed.
Lemma kl_mem_at i : klfree (mem_at i). Proof. intros e k o; reflexivity. Qed.
Lemma kl_mem_slice i n : klfree (mem_slice i n). Proof. intros e k o; reflexivity. Qed.
Lemma kl_lift {A} (r : outcome A) : klfree (lift r). Proof. intros e k o; reflexivity. Qed.
Lemma kl_bind {A B} (p : P A) (f : A -> P B) : klfree p -> (forall a, klfree (f a)) -> klfree (bind p f).
Proof. intros Hp Hf e k o. unfold bind. rewrite Hp. destruct (p e o) as [[a|x|u] o']; auto. apply Hf. Qed.
Lemma kl_try {A} (p : P A) : klfree p -> klfree (try p).
Proof. intros Hp e k o. unfold try. rewrite Hp. reflexivity. Qed.
Lemma kl_advance n : klfree (advance n).
Proof. apply kl_bind; [apply kl_get_off | intros; apply kl_set_off]. Qed.
Lemma kl_loop {S R} n (body : S -> P (flow S R)) s : (forall s, klfree (body s)) -> klfree (loop n body s).
Proof.
  intros Hb e k o. rewrite !loop_iter. generalize (Z.to_nat n). intros m. revert s o.
  induction m as [|m IH]; intros s o; cbn [iter_loop]; [reflexivity|].
  unfold bind. rewrite (Hb s e k o). destruct (body s e o) as [[[s'|r]|x|u] o']; auto.
Qed.

Create HintDb kl.
#[export] Hint Resolve kl_ret kl_fail kl_undef kl_get_off kl_set_off
  kl_check kl_require kl_mem_at kl_mem_slice kl_lift kl_advance : kl.
#[export] Hint Extern 3 (klfree (ask _)) => (apply kl_ask; reflexivity) : kl.
Ltac kl :=
  match goal with
  | |- klfree (bind _ _) => apply kl_bind; [kl | intros; kl]
  | |- klfree (try _) => apply kl_try; kl
  | |- klfree (loop _ _ _) => apply kl_loop; intros; kl
  | |- klfree (let '_ := ?x in _) => destruct x; kl
  | |- klfree (if ?x then _ else _) => destruct x; kl
  | |- klfree (match ?x with _ => _ end) => destruct x; kl
  | _ => solve [eauto with kl]
  end.

Lemma kl_read_le k : klfree (read_le k).
Proof. induction k as [|k IH]; cbn [read_le]; [apply kl_ret|]. repeat (apply kl_bind; [solve [auto with kl]|intros]). auto with kl. Qed.
#[export] Hint Resolve kl_read_le : kl.
Lemma kl_readU8 : klfree readU8. Proof. apply kl_read_le. Qed.
Lemma kl_readU16 : klfree readU16. Proof. apply kl_read_le. Qed.
Lemma kl_readU32 : klfree readU32. Proof. apply kl_read_le. Qed.
Lemma kl_readU64 : klfree readU64. Proof. apply kl_read_le. Qed.
#[export] Hint Resolve kl_readU8 kl_readU16 kl_readU32 kl_readU64 : kl.
Lemma kl_parse_item : klfree parse_item. Proof. unfold parse_item; kl. Qed.
Lemma kl_por it p q : klfree p -> (forall i, klfree (q i)) -> klfree (por it p q).
Proof. intros; unfold por; kl. Qed.
#[export] Hint Resolve kl_parse_item : kl.
Lemma kl_pat f : forall t it, klfree (parse_additional_typebytes f t it).
Proof.
  induction f as [|f IH]; intros t it; cbn [parse_additional_typebytes]; [apply kl_undef|].
  repeat match goal with
  | |- klfree (if ?b then _ else _) => destruct b
  | |- klfree (bind _ _) => apply kl_bind; [|intros]
  | |- klfree (por _ _ _) => apply kl_por; [|intros]
  | |- _ => solve [auto with kl]
  end.
Qed.
#[export] Hint Resolve kl_pat : kl.
Lemma kl_get_type it : klfree (get_type it). Proof. unfold get_type, check_runtime_type; kl. Qed.
Lemma kl_copy cap : klfree (copy_item_into_charbuffer cap). Proof. unfold copy_item_into_charbuffer; kl. Qed.
#[export] Hint Resolve kl_get_type kl_copy : kl.
Lemma kl_skip_arg : klfree skip_arg. Proof. unfold skip_arg; kl. Qed.
#[export] Hint Resolve kl_skip_arg : kl.
Lemma kl_args n : klfree (parseRuntimeArgs n). Proof. unfold parseRuntimeArgs; kl. Qed.
Lemma kl_getData a n : klfree (getData a n). Proof. unfold getData, getData_body; kl. Qed.
#[export] Hint Resolve kl_args kl_getData : kl.
Lemma kl_printBytes o n : klfree (parser_printBytes o n). Proof. unfold parser_printBytes; kl. Qed.
Lemma kl_printAddress o n : klfree (parser_printAddress o n). Proof. unfold parser_printAddress; kl. Qed.
#[export] Hint Resolve kl_printBytes kl_printAddress : kl.
Lemma kl_hashitem n nm : klfree (showRuntimeArgsHash n nm). Proof. unfold showRuntimeArgsHash; kl. Qed.
#[export] Hint Resolve kl_hashitem : kl.
Lemma kl_args_hash s n nm : klfree (args_hash s n nm). Proof. unfold args_hash; kl. Qed.
Lemma kl_pre n : klfree (display_pre n). Proof. unfold display_pre; kl. Qed.
Lemma kl_big n : klfree (amount_bignum n). Proof. unfold amount_bignum; kl. Qed.
Lemma kl_int n : klfree (amount_int n). Proof. unfold amount_int; kl. Qed.
#[export] Hint Resolve kl_args_hash kl_pre kl_big kl_int : kl.
Lemma kl_dmotes t n : klfree (display_runtimeArgMotes t n). Proof. unfold display_runtimeArgMotes; kl. Qed.
Lemma kl_darg t n : klfree (display_runtimeArg t n). Proof. unfold display_runtimeArg; kl. Qed.
#[export] Hint Resolve kl_dmotes kl_darg : kl.
Lemma kl_show_arg k a n : klfree (show_arg k a n). Proof. unfold show_arg; kl. Qed.
Lemma kl_show_motes k a n : klfree (show_motes k a n). Proof. unfold show_motes; kl. Qed.
#[export] Hint Resolve kl_show_arg kl_show_motes : kl.
Lemma kl_payment i idx : klfree (getItem_SystemPayment i idx). Proof. unfold getItem_SystemPayment; kl. Qed.
Lemma kl_entry ep : klfree (render_entry_point ep). Proof. unfold render_entry_point; kl. Qed.
Lemma kl_chash : klfree render_contract_hash. Proof. unfold render_contract_hash; kl. Qed.
Lemma kl_addr : klfree render_address. Proof. unfold render_address; kl. Qed.
Lemma kl_name : klfree render_name. Proof. unfold render_name; kl. Qed.
Lemma kl_version : klfree parse_version. Proof. unfold parse_version; kl. Qed.
#[export] Hint Resolve kl_payment kl_entry kl_chash kl_addr kl_name kl_version : kl.
Lemma kl_fixed i ep idx : klfree (render_fixed_delegation_items i ep idx).
Proof. unfold render_fixed_delegation_items; kl. Qed.
#[export] Hint Resolve kl_fixed : kl.
Lemma kl_deleg i ep idx : klfree (getItem_Delegation i ep idx). Proof. unfold getItem_Delegation; kl. Qed.
Lemma kl_index h p : klfree (index_headerpart_deploy h p). Proof. unfold index_headerpart_deploy; kl. Qed.
Lemma kl_string k o n : klfree (DISPLAY_STRING k o n). Proof. unfold DISPLAY_STRING; kl. Qed.
Lemma kl_time : klfree show_timestamp. Proof. unfold show_timestamp; kl. Qed.
Lemma kl_ttl : klfree show_ttl. Proof. unfold show_ttl; kl. Qed.
#[export] Hint Resolve kl_deleg kl_index kl_string kl_time kl_ttl : kl.

Lemma kl_bind_at {A B} (p : P A) (f : A -> P B) e k o :
  p (with_kl e k) o = p e o ->
  (forall a o', p e o = (Ret a, o') -> f a (with_kl e k) o' = f a e o') ->
  bind p f (with_kl e k) o = bind p f e o.
Proof. intros Hp Hf. unfold bind. rewrite Hp. destruct (p e o) as [[a|x|u] o']; auto. Qed.

Lemma native_kl i idx e k o :
  (forall n o', readU32 e (u16 (o + 1)) = (Ret n, o') -> dgeneric i = true \/ n = 3 \/ n = 4) ->
  getItem_NativeTransfer i idx (with_kl e k) o = getItem_NativeTransfer i idx e o.
Proof.
  intros Hn. unfold getItem_NativeTransfer.
  apply kl_bind_at; [apply kl_advance|]. intros u o1 A. apply advance_inv in A. subst o1.
  apply kl_bind_at; [apply kl_get_off|]. intros st o1 A. apply get_off_inv in A. destruct A as [-> ->].
  apply kl_bind_at; [apply kl_readU32|]. intros n o1 A. apply Hn in A.
  apply kl_bind_at; [apply kl_check|]. intros u1 o2 _.
  apply kl_bind_at; [apply kl_check|]. intros u2 o3 _.
  destruct (dgeneric i) eqn:G.
  - revert e k o3 Hn A. intros e k o3 _ _. assert (K : klfree (if u8 (idx - UI_fixed_items i) =? 0
      then args_hash (u16 (o + 1)) (UI_runtime_items i) (str "native-transfer") else fail parser_no_data)) by kl.
    apply K.
  - destruct A as [A|A]; [discriminate|]. replace ((n =? 3) || (n =? 4)) with true by lia. cbn [negb].
    match goal with |- ?p _ _ = _ => assert (K : klfree p) by kl end. apply K.
Qed.

Lemma deleg_special i n rd e o r o' :
  fresh_item i -> dspecial i <> NativeTransfer -> parseDelegation i n rd e o = (Ret r, o') -> dspecial r <> NativeTransfer.
Proof.
  intros F N H. unfold parseDelegation in H. destruct (dtype i =? ModuleBytes).
  - bx H m o1 M. assert (X : fresh_item (fst (fst m)) /\ dspecial (fst (fst m)) <> NativeTransfer).
    { unfold parseDelegation_module in M. pgo; cbn [fst];
        (split; [exact F|]); cbn [dspecial set_special]; repeat destruct (list_eqb _ _); discriminate. }
    destruct X as [X1 X2]. apply deleg_args_post in H; [|exact X1]. destruct H as (_ & _ & ->). exact X2.
  - apply deleg_args_post in H; [|exact F]. destruct H as (_ & _ & ->). exact N.
Qed.

Lemma session_native t e p s ep o2 :
  wf e -> in16 p -> parseDeployItem_session t e p = (Ret (s, ep), o2) -> dspecial s = NativeTransfer ->
  forall n o', readU32 e p = (Ret n, o') -> dgeneric s = true \/ n = 3 \/ n = 4.
Proof.
  intros W I H Sp n o' R. assert (F : fresh_item (init_item t)) by (split; reflexivity).
  assert (N : dspecial (init_item t) <> NativeTransfer) by discriminate.
  unfold parseDeployItem_session in H.
  destruct (t =? ModuleBytes); [|destruct (_ || _); [|destruct (_ || _); [|destruct (t =? Transfer); [|discriminate]]]].
  - exfalso. unfold parseModuleBytes_session in H. pgo.
    match goal with H : (s, ep) = _ |- _ => injection H as -> -> end.
    match goal with H : parseDelegation _ _ _ _ _ = _ |- _ => apply deleg_special in H; auto end.
  - exfalso. unfold parseStoredContractByHash, check_entrypoint in H. pgo;
    match goal with H : (s, ep) = _ |- _ => injection H as -> -> end;
    match goal with H : parseDelegation _ _ _ _ _ = _ |- _ => apply deleg_special in H; auto end;
    cbn; repeat destruct (name_is _ _); discriminate.
  - exfalso. unfold parseStoredContractByName, check_entrypoint in H. pgo;
    match goal with H : (s, ep) = _ |- _ => injection H as -> -> end;
    match goal with H : parseDelegation _ _ _ _ _ = _ |- _ => apply deleg_special in H; auto end;
    cbn; repeat destruct (name_is _ _); discriminate.
  - unfold parseTransfer in H. bx H i1 q1 T. apply ret_inv in H. destruct H as [E ->]. injection E as -> ->.
    unfold off32 in T. bx T st q2 O. pinv.
    match goal with H : readU32 _ _ = _ |- _ => rewrite R in H; injection H as <- <- end.
    match goal with H : parseNativeTransfer _ _ _ _ = _ |- _ => rename H into PN end.
    unfold parseNativeTransfer in PN. bx PN fd q3 C. apply native_post in C.
    apply readU32_inv in R; auto. destruct R as (R & _). pgo; cbn [dgeneric set_generic add_runtime set_total set_special]; auto.
    right. unfold u32 in *. lia.
Qed.

(** items of an accepted deploy, whatever the key buffer *)
Lemma item_kl pf x kl data v idx o :
  (forall y, zlen (p_hash pf y) = 32 /\ bytes (p_hash pf y)) -> bytes data -> zlen data < 65535 ->
  tx_parse pf x (0 :: data) = Ret (TDeploy v) ->
  let e := ctx_of pf x false 40 data (zlen data) in
  getItemDeploy v idx (with_kl e kl) o = getItemDeploy v idx e o.
Proof.
  intros Hh B L H e.
  destruct (accepted_deploy _ _ _ _ Hh B L H) as (W & o1 & o2 & t & o3 & its & o4 & hdr & dh & body & bh & RD & RP & At & Tr & RS & Dt & Ct
     & It & L1 & L2 & L3 & T1 & T2 & PK & A0 & S1 & S2 & H1 & S3 & S4 & H2). fold e in W, RD, RP, At, RS, It, A0.
  pose proof (header_len_range (dheader v)) as HL.
  unfold getItemDeploy. rewrite !step_ask. change (expert (with_kl e kl)) with (expert e).
  apply kl_bind_at; [apply kl_check|]. intros u q1 _.
  repeat match goal with |- (if ?b then _ else _) _ _ = _ =>
    destruct b; [match goal with |- ?p _ _ = _ => assert (K : klfree p) by kl; apply K end|] end.
  apply kl_bind_at; [apply kl_set_off|]. intros u1 q2 So. apply set_off_inv in So. rewrite u16_small in So by lia. subst q2.
  match goal with |- (if ?b then _ else _) _ _ = _ =>
    destruct b; [match goal with |- ?p _ _ = _ => assert (K : klfree p) by kl; apply K end|] end.
  apply kl_bind_at; [apply kl_advance|]. intros u2 q3 So. apply advance_inv in So.
  rewrite T1, u16_small in So by lia. replace (header_length_deploy (dheader v) + 32 + (o1 - (header_length_deploy (dheader v) + 32))) with o1 in So by lia. subst q3.
  match goal with |- (if ?b then _ else _) _ _ = _ => destruct b end.
  - destruct (dspecial (session v) =? NativeTransfer) eqn:NT.
    + apply native_kl. rewrite u16_small by lia. eapply session_native; [exact W| |exact RS|lia].
      unfold in16; lia.
    + match goal with |- ?p _ _ = _ => assert (K : klfree p) by kl; apply K end.
  - match goal with |- ?p _ _ = _ => assert (K : klfree p) by kl; apply K end.
Qed.

Lemma shown_all pf x kl data v :
  (forall y, zlen (p_hash pf y) = 32 /\ bytes (p_hash pf y)) -> bytes data -> zlen data < 65535 ->
  tx_parse pf x (0 :: data) = Ret (TDeploy v) ->
  (if x then 10 else 5) <= getNumItems x (TDeploy v) <= (if x then 19 else 14) /\
  forall idx,
    (0 <= idx < getNumItems x (TDeploy v) -> exists it, tx_getItem pf x kl (0 :: data) (TDeploy v) idx = Ret it) /\
    (getNumItems x (TDeploy v) <= idx -> tx_getItem pf x kl (0 :: data) (TDeploy v) idx = Fail parser_no_data).
Proof.
  intros Hh B L H. pose proof (fun idx o => item_kl pf x kl data v idx o Hh B L H) as KL. cbv zeta in KL.
  destruct (accepted_deploy _ _ _ _ Hh B L H) as (W & o1 & o2 & t & o3 & its & o4 & hdr & dh & body & bh & RD & RP & At & Tr & RS & Dt & Ct
     & It & L1 & L2 & L3 & T1 & T2 & PK & A0 & S1 & S2 & H1 & S3 & S4 & H2).
  set (e := ctx_of pf x false 40 data (zlen data)) in *.
  pose proof (header_len_range (dheader v)) as HL.
  assert (Ip : in16 (header_length_deploy (dheader v) + 32)) by (unfold in16; lia).
  destruct (payment_fixed _ _ _ _ W Ip RP) as (P1 & P2 & _).
  cbn [getNumItems] in *. split; [apply num_items; auto|].
  assert (TG : forall idx, tx_getItem pf x kl (0 :: data) (TDeploy v) idx = fst (getItemDeploy v idx e 0)).
  { intros idx. unfold tx_getItem. pose proof (zlen_nonneg data). rewrite zlen_cons, u16_small by lia.
    replace (1 + zlen data - 1) with (zlen data) by lia. rewrite <- KL. reflexivity. }
  intros idx. rewrite TG. split; intros Hi.
  - destruct (items_nth _ _ _ _ _ _ _ It) as [_ K]. destruct (K (Z.to_nat idx)) as (it & p1 & p2 & _ & G); [lia|].
    exists it. rewrite Z.add_0_l, Z2Nat.id in G by lia. cbn [getItem] in G.
    rewrite (item_any_off v idx e 0 p1), G. reflexivity.
  - unfold getItemDeploy. rewrite step_ask. change (expert e) with x.
    unfold bind at 1, check. destruct (idx <? getNumItemsDeploy x v) eqn:E; [lia|reflexivity].
Qed.
