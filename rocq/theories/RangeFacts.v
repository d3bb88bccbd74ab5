(** The cursor always stays a 16-bit value; reading back what the readers
    read, on arbitrary bytes. *)
From Verif Require Import Base Zxlib Crypto Utils RuntimeArg Deploy DeployUI TxV1 TxV1UI Parser BaseFacts Spec Exec ArgsFacts ReaderFacts.
Import S.

Definition in16 (o : Z) : Prop := 0 <= o < 65536.
Definition ranged {A} (p : P A) : Prop := forall e o, in16 o -> in16 (snd (p e o)).

Lemma u16_range x : in16 (u16 x).
Proof. unfold in16, u16; lia. Qed.
Lemma ranged_ret {A} (a : A) : ranged (ret a). Proof. intros e o H; exact H. Qed.
Lemma ranged_fail {A} x : ranged (@fail A x). Proof. intros e o H; exact H. Qed.
Lemma ranged_undef {A} x : ranged (@undef A x). Proof. intros e o H; exact H. Qed.
Lemma ranged_ask {A} (f : env -> A) : ranged (ask f). Proof. intros e o H; exact H. Qed.
Lemma ranged_get_off : ranged get_off. Proof. intros e o H; exact H. Qed.
Lemma ranged_set_off x : ranged (set_off x). Proof. intros e o H; apply u16_range. Qed.
Lemma ranged_check b x : ranged (check b x). Proof. intros e o H; unfold check; destruct b; exact H. Qed.
Lemma ranged_require b x : ranged (require b x). Proof. intros e o H; unfold require; destruct b; exact H. Qed.
Lemma ranged_mem_at i : ranged (mem_at i). Proof. intros e o H; unfold mem_at; destruct (rd _ _); exact H. Qed.
Lemma ranged_mem_slice i n : ranged (mem_slice i n). Proof. intros e o H; unfold mem_slice; destruct (slice _ _ _); exact H. Qed.
Lemma ranged_lift {A} (r : outcome A) : ranged (lift r). Proof. intros e o H; exact H. Qed.
Lemma ranged_bind {A B} (p : P A) (f : A -> P B) : ranged p -> (forall a, ranged (f a)) -> ranged (bind p f).
Proof.
  intros Hp Hf e o H. unfold bind. specialize (Hp e o H).
  destruct (p e o) as [[a|x|u] o']; cbn [snd] in *; auto. apply Hf; auto.
Qed.
Lemma ranged_try {A} (p : P A) : ranged p -> ranged (try p).
Proof. intros Hp e o H. unfold try. specialize (Hp e o H). destruct (p e o) as [[a|x|u] o']; exact Hp. Qed.
Lemma ranged_advance n : ranged (advance n).
Proof. apply ranged_bind; [apply ranged_get_off | intros; apply ranged_set_off]. Qed.
Lemma ranged_loop {S R} n (body : S -> P (flow S R)) s : (forall s, ranged (body s)) -> ranged (loop n body s).
Proof.
  intros Hb e o H. rewrite loop_iter. generalize (Z.to_nat n). intros k. revert s e o H.
  induction k as [|k IH]; intros s e o H; cbn [iter_loop]; [exact H|].
  apply (ranged_bind (body s)); [apply Hb| |exact H]. intros [s'|r]; [intros e' o' H'; apply IH; exact H' | apply ranged_ret].
Qed.

Create HintDb rng.
#[export] Hint Resolve ranged_ret ranged_fail ranged_undef ranged_ask ranged_get_off ranged_set_off
  ranged_check ranged_require ranged_mem_at ranged_mem_slice ranged_lift ranged_advance : rng.
Ltac rng :=
  match goal with
  | |- ranged (bind _ _) => apply ranged_bind; [rng | intros; rng]
  | |- ranged (try _) => apply ranged_try; rng
  | |- ranged (loop _ _ _) => apply ranged_loop; intros; rng
  | |- ranged (let '_ := ?x in _) => destruct x; rng
  | |- ranged (if ?x then _ else _) => destruct x; rng
  | |- ranged (match ?x with _ => _ end) => destruct x; rng
  | _ => solve [eauto with rng]
  end.

Lemma ranged_read_le k : ranged (read_le k).
Proof. induction k as [|k IH]; cbn [read_le]; [apply ranged_ret|]. repeat (apply ranged_bind; [solve [auto with rng]|intros]). auto with rng. Qed.
#[export] Hint Resolve ranged_read_le : rng.
Lemma ranged_readU8 : ranged readU8. Proof. apply ranged_read_le. Qed.
Lemma ranged_readU16 : ranged readU16. Proof. apply ranged_read_le. Qed.
Lemma ranged_readU32 : ranged readU32. Proof. apply ranged_read_le. Qed.
Lemma ranged_readU64 : ranged readU64. Proof. apply ranged_read_le. Qed.
#[export] Hint Resolve ranged_readU8 ranged_readU16 ranged_readU32 ranged_readU64 : rng.
Lemma ranged_parse_item : ranged parse_item. Proof. unfold parse_item; rng. Qed.
Lemma ranged_por it p q : ranged p -> (forall i, ranged (q i)) -> ranged (por it p q).
Proof. intros; unfold por; rng. Qed.
#[export] Hint Resolve ranged_parse_item : rng.
Lemma ranged_pat f : forall t it, ranged (parse_additional_typebytes f t it).
Proof.
  induction f as [|f IH]; intros t it; cbn [parse_additional_typebytes]; [apply ranged_undef|].
  repeat match goal with
  | |- ranged (if _ then _ else _) => match goal with |- ranged (if ?b then _ else _) => destruct b end
  | |- ranged (bind _ _) => apply ranged_bind; [|intros]
  | |- ranged (por _ _ _) => apply ranged_por; [|intros]
  | |- _ => solve [auto with rng]
  end.
Qed.
#[export] Hint Resolve ranged_pat : rng.
Lemma ranged_get_type it : ranged (get_type it). Proof. unfold get_type, check_runtime_type; rng. Qed.
#[export] Hint Resolve ranged_get_type : rng.
Lemma ranged_copy cap : ranged (copy_item_into_charbuffer cap). Proof. unfold copy_item_into_charbuffer; rng. Qed.
#[export] Hint Resolve ranged_copy : rng.
Lemma ranged_skip_arg : ranged skip_arg. Proof. unfold skip_arg; rng. Qed.
#[export] Hint Resolve ranged_skip_arg : rng.
Lemma ranged_args n : ranged (parseRuntimeArgs n). Proof. unfold parseRuntimeArgs; rng. Qed.
Lemma ranged_search a n : ranged (searchRuntimeArgs a n). Proof. unfold searchRuntimeArgs, search_body; rng. Qed.
Lemma ranged_getData a n : ranged (getData a n). Proof. unfold getData, getData_body; rng. Qed.
Lemma ranged_off32 : ranged off32. Proof. unfold off32; rng. Qed.
#[export] Hint Resolve ranged_args ranged_search ranged_getData ranged_off32 : rng.
Lemma ranged_total s : ranged (parseTotalLength s). Proof. unfold parseTotalLength; rng. Qed.
#[export] Hint Resolve ranged_total : rng.
Lemma ranged_CHECK n a c : ranged (CHECK_RUNTIME_ARGTYPE n a c). Proof. unfold CHECK_RUNTIME_ARGTYPE; rng. Qed.
Lemma ranged_COUNT n a c f : ranged (COUNT_RUNTIME_ARGTYPE n a c f). Proof. unfold COUNT_RUNTIME_ARGTYPE; rng. Qed.
#[export] Hint Resolve ranged_CHECK ranged_COUNT : rng.
Lemma ranged_native n : ranged (checkNativeTransferArgs n). Proof. unfold checkNativeTransferArgs; rng. Qed.
#[export] Hint Resolve ranged_native : rng.
Lemma ranged_parseNative i n : ranged (parseNativeTransfer i n). Proof. unfold parseNativeTransfer; rng. Qed.
Lemma ranged_syspay i n : ranged (parseSystemPayment i n). Proof. unfold parseSystemPayment, checkForSystemPaymentArgs; rng. Qed.
Lemma ranged_checkdel i n r : ranged (checkForDelegationItems i n r). Proof. unfold checkForDelegationItems; rng. Qed.
#[export] Hint Resolve ranged_parseNative ranged_syspay ranged_checkdel : rng.
Lemma ranged_deleg i n r : ranged (parseDelegation i n r).
Proof. unfold parseDelegation, parseDelegation_module, parseDelegation_args; rng. Qed.
#[export] Hint Resolve ranged_deleg : rng.
Lemma ranged_version : ranged parse_version. Proof. unfold parse_version; rng. Qed.
#[export] Hint Resolve ranged_version : rng.
Lemma ranged_entry i : ranged (check_entrypoint i). Proof. unfold check_entrypoint; rng. Qed.
#[export] Hint Resolve ranged_entry : rng.
Lemma ranged_session t : ranged (parseDeployItem_session t).
Proof. unfold parseDeployItem_session, parseModuleBytes_session, parseStoredContractByHash, parseStoredContractByName, parseTransfer; rng. Qed.
Lemma ranged_index h p : ranged (index_headerpart_deploy h p). Proof. unfold index_headerpart_deploy; rng. Qed.
#[export] Hint Resolve ranged_session ranged_index : rng.
Lemma ranged_counts k : ranged (read_header_counts k). Proof. unfold read_header_counts; rng. Qed.
Lemma ranged_deploytype : ranged parseDeployType. Proof. unfold parseDeployType; rng. Qed.
#[export] Hint Resolve ranged_counts ranged_deploytype : rng.
Lemma ranged_payment : ranged read_payment. Proof. unfold read_payment, parseModuleBytes_payment; rng. Qed.
#[export] Hint Resolve ranged_payment : rng.
Lemma ranged_deploy : ranged parser_read_deploy. Proof. unfold parser_read_deploy; rng. Qed.
#[export] Hint Resolve ranged_deploy : rng.

(** use: the cursor after a successful step *)
Lemma ranged_ok {A} (p : P A) e o a o' : ranged p -> in16 o -> p e o = (Ret a, o') -> in16 o'.
Proof. intros R I E. specialize (R e o I). rewrite E in R. exact R. Qed.
Lemma ranged_any {A} (p : P A) e o r o' : ranged p -> in16 o -> p e o = (r, o') -> in16 o'.
Proof. intros R I E. specialize (R e o I). rewrite E in R. exact R. Qed.

(** * Readers, backwards *)
Lemma read_le_inv k e o v o' :
  wf e -> in16 o -> read_le (Datatypes.S k) e o = (Ret v, o') ->
  0 <= v < 256 ^ Z.of_nat (Datatypes.S k) /\ at_ e o (le (Datatypes.S k) v) /\
  o + Z.of_nat (Datatypes.S k) <= blen e /\ o' = o + Z.of_nat (Datatypes.S k).
Proof.
  intros W I E. destruct (Z_le_gt_dec (o + Z.of_nat (Datatypes.S k)) (blen e)) as [L|L].
  - destruct (read_le_ok (Datatypes.S k) e o W ltac:(unfold in16 in I; lia) L) as (bs & Sl & E').
    rewrite E' in E. injection E as <- <-.
    pose proof (slice_len _ _ _ _ Sl) as Ll. pose proof (slice_bytes _ _ _ _ (wf_bytes e W) Sl) as B.
    pose proof (value_bound bs B) as V. rewrite Ll in V. repeat split; try lia.
    rewrite le_value; auto; [|unfold zlen in Ll; lia]. unfold at_. rewrite Ll. exact Sl.
  - destruct (read_le_short k e o W I ltac:(lia)) as (o'' & E'). rewrite E' in E. discriminate E.
Qed.
Lemma readU8_inv e o v o' : wf e -> in16 o -> readU8 e o = (Ret v, o') ->
  0 <= v < 256 /\ at_ e o [v] /\ o + 1 <= blen e /\ o' = o + 1.
Proof.
  intros W I E. apply read_le_inv in E; auto. cbn [Z.of_nat Pos.of_succ_nat] in E. change (256 ^ 1) with 256 in E.
  destruct E as (R & A & B). split; [exact R|]. split; [|exact B]. cbn [le] in A. rewrite Z.mod_small in A by lia. exact A.
Qed.
Lemma readU32_inv e o v o' : wf e -> in16 o -> readU32 e o = (Ret v, o') ->
  0 <= v < 2 ^ 32 /\ at_ e o (le 4 v) /\ o + 4 <= blen e /\ o' = o + 4.
Proof. intros W I E. apply read_le_inv in E; auto. Qed.
Lemma readU16_inv e o v o' : wf e -> in16 o -> readU16 e o = (Ret v, o') ->
  0 <= v < 65536 /\ at_ e o (le 2 v) /\ o + 2 <= blen e /\ o' = o + 2.
Proof. intros W I E. apply read_le_inv in E; auto. Qed.
Lemma readU64_inv e o v o' : wf e -> in16 o -> readU64 e o = (Ret v, o') ->
  0 <= v < 2 ^ 64 /\ at_ e o (le 8 v) /\ o + 8 <= blen e /\ o' = o + 8.
Proof. intros W I E. apply read_le_inv in E; auto. Qed.
