(** No undefined behaviour while parsing. *)
From Verif Require Import Base Zxlib Crypto Utils RuntimeArg Deploy DeployUI TxV1 TxV1UI Parser BaseFacts Spec Exec ArgsFacts ReaderFacts RangeFacts BindFacts.
Import S.

(** From a cursor in range, the step does not run into undefined behaviour and
    leaves the cursor in range. *)
Definition safe {A} (p : P A) : Prop := forall e o, wf e -> in16 o ->
  in16 (snd (p e o)) /\ forall u, fst (p e o) <> Undef u.

Lemma safe_ret {A} (a : A) : safe (ret a). Proof. intros e o W I. split; [exact I|discriminate]. Qed.
Lemma safe_fail {A} x : safe (@fail A x). Proof. intros e o W I. split; [exact I|discriminate]. Qed.
Lemma safe_ask {A} (f : env -> A) : safe (ask f). Proof. intros e o W I. split; [exact I|discriminate]. Qed.
Lemma safe_get_off : safe get_off. Proof. intros e o W I. split; [exact I|discriminate]. Qed.
Lemma safe_set_off x : safe (set_off x). Proof. intros e o W I. split; [apply u16_range|discriminate]. Qed.
Lemma safe_check b x : safe (check b x). Proof. intros e o W I. unfold check. destruct b; split; try exact I; discriminate. Qed.
Lemma safe_bind {A B} (p : P A) (f : A -> P B) : safe p -> (forall a, safe (f a)) -> safe (bind p f).
Proof.
  intros Hp Hf e o W I. specialize (Hp e o W I). unfold bind. destruct (p e o) as [[a|x|u] o']; cbn [fst snd] in *.
  - apply Hf; tauto.
  - split; [tauto|discriminate].
  - destruct Hp as [_ Hp]. destruct (Hp u eq_refl).
Qed.
Lemma safe_try {A} (p : P A) : safe p -> safe (try p).
Proof.
  intros Hp e o W I. specialize (Hp e o W I). unfold try. destruct (p e o) as [[a|x|u] o']; cbn [fst snd] in *.
  - split; [tauto|discriminate].
  - split; [tauto|discriminate].
  - destruct Hp as [_ Hp]. destruct (Hp u eq_refl).
Qed.
Lemma safe_advance n : safe (advance n).
Proof. apply safe_bind; [apply safe_get_off | intros; apply safe_set_off]. Qed.
Lemma safe_loop {S R} n (body : S -> P (flow S R)) s : (forall s, safe (body s)) -> safe (loop n body s).
Proof.
  intros Hb e o W I. rewrite loop_iter. generalize (Z.to_nat n). intros k. revert s e o W I.
  induction k as [|k IH]; intros s e o W I; cbn [iter_loop]; [split; [exact I|discriminate]|].
  apply (safe_bind (body s)); auto. intros [s'|r]; [intros e' o' W' I'; apply IH; auto | apply safe_ret].
Qed.

Create HintDb safe.
#[export] Hint Resolve safe_ret safe_fail safe_ask safe_get_off safe_set_off safe_check safe_advance : safe.
Ltac saf :=
  match goal with
  | |- safe (bind _ _) => apply safe_bind; [saf | intros; saf]
  | |- safe (try _) => apply safe_try; saf
  | |- safe (loop _ _ _) => apply safe_loop; intros; saf
  | |- safe (let '_ := ?x in _) => destruct x; saf
  | |- safe (if ?x then _ else _) => destruct x; saf
  | |- safe (match ?x with _ => _ end) => destruct x; saf
  | _ => solve [eauto with safe]
  end.

Lemma safe_read_le k : safe (read_le k).
Proof.
  induction k as [|k IH]; [apply safe_ret|]. intros e o W I. cbn [read_le].
  cbv beta iota zeta delta [bind get_off ask check mem_at ret fail advance set_off].
  destruct (o <? blen e) eqn:L.
  - unfold rd. pose proof (wf_len e W) as B. unfold in16 in I.
    destruct ((0 <=? o) && (o <? zlen (mem e))) eqn:Q.
    2:{ apply Bool.andb_false_iff in Q. lia. }
    destruct (nth_error (mem e) (Z.to_nat o)) eqn:N.
    2:{ apply nth_error_None in N. unfold zlen in *. lia. }
    specialize (IH e (u16 (o + 1)) W (u16_range _)).
    destruct (read_le k e (u16 (o + 1))) as [[a|x|u] o']; cbn [fst snd] in *.
    + split; [tauto|discriminate].
    + split; [tauto|discriminate].
    + destruct IH as [_ IH]. destruct (IH u eq_refl).
  - split; [exact I|discriminate].
Qed.
#[export] Hint Resolve safe_read_le : safe.
Lemma safe_readU8 : safe readU8. Proof. apply safe_read_le. Qed.
Lemma safe_readU16 : safe readU16. Proof. apply safe_read_le. Qed.
Lemma safe_readU32 : safe readU32. Proof. apply safe_read_le. Qed.
Lemma safe_readU64 : safe readU64. Proof. apply safe_read_le. Qed.
#[export] Hint Resolve safe_readU8 safe_readU16 safe_readU32 safe_readU64 : safe.

(** the result of a byte read *)
Lemma safe_u8 {B} (f : Z -> P B) : (forall a, 0 <= a < 256 -> safe (f a)) -> safe (bind readU8 f).
Proof.
  intros Hf e o W I. pose proof (safe_readU8 e o W I) as S. unfold bind. destruct (readU8 e o) as [[a|x|u] o'] eqn:E; cbn [fst snd] in *.
  - apply Hf; try tauto. apply readU8_inv in E; tauto.
  - split; [tauto|discriminate].
  - destruct S as [_ S]. destruct (S u eq_refl).
Qed.

Lemma slice_some m o n : 0 <= o -> 0 <= n -> o + n <= zlen m -> slice m o n <> None.
Proof. intros. unfold slice. destruct ((0 <=? o) && (0 <=? n) && (o + n <=? zlen m)) eqn:E; [discriminate|]. exfalso. destruct (0 <=? o) eqn:?, (0 <=? n) eqn:?, (o + n <=? zlen m) eqn:?; cbn in E; try discriminate; lia. Qed.

Lemma safe_copy cap : safe (copy_item_into_charbuffer cap).
Proof.
  intros e o W I.
  enough (H : exists r, copy_item_into_charbuffer cap e o = r /\ in16 (snd r) /\ forall u, fst r <> Undef u)
    by (destruct H as (r & -> & H); exact H).
  unfold copy_item_into_charbuffer, bind at 1.
  pose proof (safe_readU32 e o W I) as S. destruct (readU32 e o) as [[p|x|u] o'] eqn:E; cbn [fst snd] in *.
  2:{ eexists; split; [reflexivity|]. split; [tauto|discriminate]. }
  2:{ destruct S as [_ S]. destruct (S u eq_refl). }
  destruct S as [I' _]. apply readU32_inv in E; auto. destruct E as (P & _ & B & ->).
  cbv beta iota zeta delta [bind get_off ask check mem_slice ret fail advance set_off].
  destruct ((p <=? cap) && (p <=? blen e - (o + 4))) eqn:L.
  2:{ eexists; split; [reflexivity|]. split; [exact I'|discriminate]. }
  apply Bool.andb_true_iff in L. destruct (slice (mem e) (o + 4) p) eqn:Sl.
  - eexists; split; [reflexivity|]. split; [apply u16_range|discriminate].
  - exfalso. eapply slice_some; [| | |exact Sl]; pose proof (wf_len e W); unfold in16 in *; lia.
Qed.
#[export] Hint Resolve safe_copy : safe.

Lemma safe_parse_item : safe parse_item. Proof. unfold parse_item; saf. Qed.
#[export] Hint Resolve safe_parse_item : safe.
Lemma safe_por it p q : safe p -> (forall i, safe (q i)) -> safe (por it p q).
Proof. intros; unfold por; saf. Qed.

(** Types: one level for a plain type, two for a container, three for a map. *)
Lemma safe_pat1 f t it : is_container_type t = false -> safe (parse_additional_typebytes (Datatypes.S f) t it).
Proof.
  intros C. cbn [parse_additional_typebytes]. unfold is_container_type in C.
  apply Bool.orb_false_iff in C. destruct C as [C C3]. apply Bool.orb_false_iff in C. destruct C as [C1 C2].
  rewrite C1, C2. destruct (_ || _ || _); [apply safe_ret|].
  destruct (t =? TAG_BYTE_ARRAY); [saf|].
  assert (K : forall k, 16 <= k <= 21 -> (t =? k) = false).
  { intros k K. apply Z.eqb_neq. intros ->. unfold TAG_RESULT, TAG_ANY in C3. apply Bool.andb_false_iff in C3. lia. }
  rewrite (K TAG_RESULT), (K TAG_TUPLE1), (K TAG_TUPLE2), (K TAG_TUPLE3), (K TAG_MAP) by (cbv; split; discriminate).
  apply safe_fail.
Qed.
Ltac patgo :=
  repeat match goal with
  | |- safe (if is_container_type ?i then _ else _) => destruct (is_container_type i) eqn:?; [apply safe_fail|]
  | |- safe (if ?b then _ else _) => destruct b eqn:?
  | |- safe (bind (if is_container_type ?i then _ else _) _) => destruct (is_container_type i) eqn:?
  | |- safe (bind _ _) => apply safe_bind; [|intros]
  | |- safe (por _ _ _) => apply safe_por; [|intros]
  | |- _ => solve [auto with safe]
  | H : _ || _ = false |- _ => apply Bool.orb_false_iff in H; destruct H
  end.
Lemma safe_pat2 f t it : is_map_type t = false -> safe (parse_additional_typebytes (Datatypes.S (Datatypes.S f)) t it).
Proof.
  intros C. remember (Datatypes.S f) as g. cbn [parse_additional_typebytes]. subst g. unfold is_map_type in C. rewrite C.
  patgo; apply safe_pat1; assumption.
Qed.
Lemma safe_pat3 f t it : safe (parse_additional_typebytes (Datatypes.S (Datatypes.S (Datatypes.S f))) t it).
Proof.
  remember (Datatypes.S (Datatypes.S f)) as g. cbn [parse_additional_typebytes]. subst g.
  patgo; solve [apply safe_pat1; assumption | apply safe_pat2; assumption].
Qed.
Lemma safe_get_type it : safe (get_type it).
Proof. unfold get_type, check_runtime_type. pose proof safe_pat3. saf. Qed.
#[export] Hint Resolve safe_get_type : safe.

(** * Runtime arguments *)
Lemma safe_skip_arg : safe skip_arg. Proof. unfold skip_arg; saf. Qed.
#[export] Hint Resolve safe_skip_arg : safe.
Lemma safe_args n : safe (parseRuntimeArgs n). Proof. unfold parseRuntimeArgs; saf. Qed.
Lemma safe_search a n : safe (searchRuntimeArgs a n). Proof. unfold searchRuntimeArgs, search_body; saf. Qed.
Lemma safe_getData a n : safe (getData a n). Proof. unfold getData, getData_body; saf. Qed.
Lemma safe_off32 : safe off32. Proof. unfold off32; saf. Qed.
#[export] Hint Resolve safe_args safe_search safe_getData safe_off32 : safe.
Lemma safe_total s : safe (parseTotalLength s). Proof. unfold parseTotalLength; saf. Qed.
#[export] Hint Resolve safe_total : safe.

(** * Deploys *)
Lemma safe_CHECK n a c : safe (CHECK_RUNTIME_ARGTYPE n a c). Proof. unfold CHECK_RUNTIME_ARGTYPE; saf. Qed.
Lemma safe_COUNT n a c f : safe (COUNT_RUNTIME_ARGTYPE n a c f). Proof. unfold COUNT_RUNTIME_ARGTYPE; saf. Qed.
#[export] Hint Resolve safe_CHECK safe_COUNT : safe.
Lemma safe_native n : safe (checkNativeTransferArgs n). Proof. unfold checkNativeTransferArgs; saf. Qed.
#[export] Hint Resolve safe_native : safe.
Lemma safe_parseNative i n : safe (parseNativeTransfer i n). Proof. unfold parseNativeTransfer; saf. Qed.
Lemma safe_syspay i n : safe (parseSystemPayment i n). Proof. unfold parseSystemPayment, checkForSystemPaymentArgs; saf. Qed.
Lemma safe_checkdel i n r : safe (checkForDelegationItems i n r). Proof. unfold checkForDelegationItems; saf. Qed.
#[export] Hint Resolve safe_parseNative safe_syspay safe_checkdel : safe.
Lemma safe_deleg_args i n r h : safe (parseDelegation_args i n r h). Proof. unfold parseDelegation_args; saf. Qed.
#[export] Hint Resolve safe_deleg_args : safe.
Lemma safe_deleg i n r : dtype i <> ModuleBytes -> safe (parseDelegation i n r).
Proof. intros N. unfold parseDelegation. apply Z.eqb_neq in N. rewrite N. saf. Qed.
Lemma safe_version : safe parse_version. Proof. unfold parse_version; saf. Qed.
#[export] Hint Resolve safe_version : safe.
Lemma safe_entry i : dtype i <> ModuleBytes -> safe (check_entrypoint i).
Proof. intros N. unfold check_entrypoint. repeat (apply safe_bind; [first [apply safe_deleg; exact N | saf] | intros]). saf. Qed.
Lemma safe_session t : t <> ModuleBytes -> safe (parseDeployItem_session t).
Proof.
  intros N. unfold parseDeployItem_session, parseStoredContractByHash, parseStoredContractByName, parseTransfer.
  apply Z.eqb_neq in N. rewrite N. apply Z.eqb_neq in N. pose proof (safe_entry (init_item t) N). saf.
Qed.
Lemma safe_index h p : safe (index_headerpart_deploy h p). Proof. unfold index_headerpart_deploy; saf. Qed.
#[export] Hint Resolve safe_index : safe.
Lemma safe_counts k : safe (read_header_counts k). Proof. unfold read_header_counts; saf. Qed.
Lemma safe_deploytype : safe parseDeployType. Proof. unfold parseDeployType; saf. Qed.
#[export] Hint Resolve safe_counts safe_deploytype : safe.
Lemma safe_payment : safe read_payment. Proof. unfold read_payment, parseModuleBytes_payment; saf. Qed.
#[export] Hint Resolve safe_payment : safe.

(** * TransactionV1 *)
Lemma safe_field_offsets k : forall i, safe (read_field_offsets k i).
Proof. induction k as [|k IH]; intros i; cbn [read_field_offsets]; saf. Qed.
#[export] Hint Resolve safe_field_offsets : safe.
Lemma safe_metadata : safe read_metadata. Proof. unfold read_metadata; saf. Qed.
Lemma safe_bytes : safe read_bytes. Proof. unfold read_bytes; saf. Qed.
#[export] Hint Resolve safe_metadata safe_bytes : safe.
Lemma safe_string : safe read_string. Proof. exact safe_bytes. Qed.
Lemma safe_bool : safe read_bool. Proof. unfold read_bool; saf. Qed.
#[export] Hint Resolve safe_string safe_bool : safe.
Lemma safe_entity_version : safe read_entity_version. Proof. unfold read_entity_version; saf. Qed.
Lemma safe_hash : safe read_hash. Proof. unfold read_hash; saf. Qed.
#[export] Hint Resolve safe_entity_version safe_hash : safe.
Lemma safe_runtime : safe read_runtime. Proof. unfold read_runtime; saf. Qed.
Lemma safe_clvalue : safe read_clvalue. Proof. unfold read_clvalue; saf. Qed.
Lemma safe_public_key : safe read_public_key. Proof. unfold read_public_key; saf. Qed.
Lemma safe_signature : safe read_signature. Proof. unfold read_signature; saf. Qed.
Lemma safe_at_field b f : safe (at_field b f). Proof. unfold at_field; saf. Qed.
#[export] Hint Resolve safe_runtime safe_clvalue safe_public_key safe_signature safe_at_field : safe.
Lemma safe_initiator m pm : safe (read_initiator_address m pm). Proof. unfold read_initiator_address; saf. Qed.
Lemma safe_chain : safe read_chain_name. Proof. unfold read_chain_name; saf. Qed.
Lemma safe_pricing m pm : safe (read_pricing_mode m pm). Proof. unfold read_pricing_mode; saf. Qed.
#[export] Hint Resolve safe_initiator safe_chain safe_pricing : safe.
Lemma safe_header m pm : safe (read_txV1_header m pm). Proof. unfold read_txV1_header; saf. Qed.
Lemma safe_key k : safe (read_field_key k). Proof. unfold read_field_key; saf. Qed.
Lemma safe_read_args : safe read_args. Proof. unfold read_args, read_arg; saf. Qed.
Lemma safe_stored : safe read_stored. Proof. unfold read_stored, read_entity_address; saf. Qed.
#[export] Hint Resolve safe_header safe_key safe_read_args safe_stored : safe.
Lemma safe_target : safe read_target. Proof. unfold read_target; saf. Qed.
Lemma safe_must s n a u : safe (must_have s n a u). Proof. unfold must_have; saf. Qed.
#[export] Hint Resolve safe_target safe_must : safe.
Lemma safe_sanity a ep t : safe (check_sanity_native_transfer a ep t). Proof. unfold check_sanity_native_transfer; saf. Qed.
#[export] Hint Resolve safe_sanity : safe.
Lemma safe_entry_point a t : safe (read_entry_point a t). Proof. unfold read_entry_point; saf. Qed.
Lemma safe_scheduling : safe read_scheduling. Proof. unfold read_scheduling; saf. Qed.
#[export] Hint Resolve safe_entry_point safe_scheduling : safe.
Lemma safe_body : safe read_txV1_body. Proof. unfold read_txV1_body; saf. Qed.
Lemma safe_approvals : safe read_txV1_approvals. Proof. unfold read_txV1_approvals; saf. Qed.
#[export] Hint Resolve safe_body safe_approvals : safe.
Lemma safe_v1 : safe parser_read_transactionV1. Proof. unfold parser_read_transactionV1; saf. Qed.
