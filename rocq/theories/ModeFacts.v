(** Expert mode and parsing. *)
From Verif Require Import Base Zxlib Crypto Utils RuntimeArg Deploy DeployUI TxV1 TxV1UI Parser BaseFacts Spec Exec ArgsFacts ReaderFacts RangeFacts BindFacts.
Import S.

Definition with_x (e : env) (x : bool) : env := mkEnv (mem e) (blen e) (hi16 e) x (wasm e) (okl e) (hash e) (timefmt e).

(** Same outcome and cursor in both modes, the results being related by [R]. *)
Definition same {A} (R : A -> A -> Prop) (p q : outcome A * Z) : Prop :=
  snd p = snd q /\ match fst p, fst q with Ret a, Ret b => R a b | Fail c, Fail d => c = d | Undef u, Undef w => u = w | _, _ => False end.
Definition moded2 {A} (R : A -> A -> Prop) (p q : P A) : Prop := forall e o x, same R (p e o) (q (with_x e x) o).
Notation moded R p := (moded2 R p p).
(** Nothing depends on the mode. *)
Definition xfree {A} (p : P A) : Prop := forall e o x, p (with_x e x) o = p e o.

Lemma same_refl {A} (R : A -> A -> Prop) p : (forall a, R a a) -> same R p p.
Proof. intros H. split; [reflexivity|]. destruct (fst p); auto. Qed.
Lemma xfree_moded {A} (R : A -> A -> Prop) (p : P A) : xfree p -> (forall a, R a a) -> moded R p.
Proof. intros H r e o x. rewrite H. apply same_refl, r. Qed.
Lemma moded_bind {A B} (S : A -> A -> Prop) (R : B -> B -> Prop) (p q : P A) (f g : A -> P B) :
  moded2 S p q -> (forall a b, S a b -> moded2 R (f a) (g b)) -> moded2 R (bind p f) (bind q g).
Proof.
  intros Hp Hf e o x. specialize (Hp e o x). unfold bind. destruct (p e o) as [[a|c|u] o1], (q (with_x e x) o) as [[b|d|w] o2];
    destruct Hp as [E Hp]; cbn [fst snd] in *; try contradiction; subst; try (split; reflexivity). apply Hf, Hp.
Qed.
Lemma moded_bind_x {A B} (R : B -> B -> Prop) (p : P A) (f g : A -> P B) : xfree p -> (forall a, moded2 R (f a) (g a)) -> moded2 R (bind p f) (bind p g).
Proof. intros Hp Hf. apply (moded_bind eq); [apply xfree_moded; auto|]. intros a b <-. apply Hf. Qed.
Lemma moded_ret {A} (R : A -> A -> Prop) a b : R a b -> moded2 R (ret a) (ret b).
Proof. intros H e o x. exact (conj eq_refl H). Qed.

Lemma xf_ret {A} (a : A) : xfree (ret a). Proof. intros e o x; reflexivity. Qed.
Lemma xf_fail {A} c : xfree (@fail A c). Proof. intros e o x; reflexivity. Qed.
Lemma xf_undef {A} c : xfree (@undef A c). Proof. intros e o x; reflexivity. Qed.
Lemma xf_get : xfree get_off. Proof. intros e o x; reflexivity. Qed.
Lemma xf_set n : xfree (set_off n). Proof. intros e o x; reflexivity. Qed.
Lemma xf_check b c : xfree (check b c). Proof. intros e o x; unfold check; destruct b; reflexivity. Qed.
Lemma xf_require b c : xfree (require b c). Proof. intros e o x; unfold require; destruct b; reflexivity. Qed.
Lemma xf_blen : xfree (ask blen). Proof. intros e o x; reflexivity. Qed.
Lemma xf_hi : xfree (ask hi16). Proof. intros e o x; reflexivity. Qed.
Lemma xf_wasm : xfree (ask wasm). Proof. intros e o x; reflexivity. Qed.
Lemma xf_hash : xfree (ask hash). Proof. intros e o x; reflexivity. Qed.
Lemma xf_mem_at i : xfree (mem_at i). Proof. intros e o x; reflexivity. Qed.
Lemma xf_slice i n : xfree (mem_slice i n). Proof. intros e o x; reflexivity. Qed.
Lemma xf_advance n : xfree (advance n). Proof. intros e o x; reflexivity. Qed.
Lemma xf_bind {A B} (p : P A) (f : A -> P B) : xfree p -> (forall a, xfree (f a)) -> xfree (bind p f).
Proof. intros Hp Hf e o x. unfold bind. rewrite Hp. destruct (p e o) as [[a|c|u] o1]; [apply Hf|reflexivity|reflexivity]. Qed.
Lemma xf_try {A} (p : P A) : xfree p -> xfree (try p).
Proof. intros Hp e o x. unfold try. rewrite Hp. reflexivity. Qed.
Lemma xf_loop {S R} n (body : S -> P (flow S R)) s : (forall s, xfree (body s)) -> xfree (loop n body s).
Proof.
  intros Hb e o x. rewrite !loop_iter. generalize (Z.to_nat n). intros k. revert s o.
  induction k as [|k IH]; intros s o; cbn [iter_loop]; [reflexivity|].
  unfold bind. rewrite Hb. destruct (body s e o) as [[[s'|r]|c|u] o1]; auto.
Qed.
Create HintDb xf.
#[export] Hint Resolve xf_ret xf_fail xf_undef xf_get xf_set xf_check xf_require xf_blen xf_hi xf_wasm xf_hash xf_mem_at xf_slice xf_advance : xf.
Ltac xf :=
  match goal with
  | |- xfree (bind _ _) => apply xf_bind; [xf | intros; xf]
  | |- xfree (try _) => apply xf_try; xf
  | |- xfree (loop _ _ _) => apply xf_loop; intros; xf
  | |- xfree (let '_ := ?x in _) => destruct x; xf
  | |- xfree (if ?x then _ else _) => destruct x; xf
  | |- xfree (match ?x with _ => _ end) => destruct x; xf
  | _ => solve [eauto with xf]
  end.
Lemma xf_read_le k : xfree (read_le k). Proof. induction k; cbn [read_le]; xf. Qed.
#[export] Hint Resolve xf_read_le : xf.
Lemma xf_u8 : xfree readU8. Proof. apply xf_read_le. Qed.
Lemma xf_u16 : xfree readU16. Proof. apply xf_read_le. Qed.
Lemma xf_u32 : xfree readU32. Proof. apply xf_read_le. Qed.
Lemma xf_u64 : xfree readU64. Proof. apply xf_read_le. Qed.
#[export] Hint Resolve xf_u8 xf_u16 xf_u32 xf_u64 : xf.
Lemma xf_item : xfree parse_item. Proof. unfold parse_item. xf. Qed.
Lemma xf_por it p q : xfree p -> (forall i, xfree (q i)) -> xfree (por it p q).
Proof. intros. unfold por. xf. Qed.
#[export] Hint Resolve xf_item xf_por : xf.
Lemma xf_typebytes f : forall t it, xfree (parse_additional_typebytes f t it).
Proof. induction f as [|f IH]; intros t it; cbn [parse_additional_typebytes]; xf. Qed.
#[export] Hint Resolve xf_typebytes : xf.
Lemma xf_get_type it : xfree (get_type it). Proof. unfold get_type, check_runtime_type. xf. Qed.
Lemma xf_total s : xfree (parseTotalLength s). Proof. unfold parseTotalLength, off32. xf. Qed.
Lemma xf_off32 : xfree off32. Proof. unfold off32. xf. Qed.
Lemma xf_copy cap : xfree (copy_item_into_charbuffer cap). Proof. unfold copy_item_into_charbuffer. xf. Qed.
#[export] Hint Resolve xf_get_type xf_total xf_off32 xf_copy : xf.
Lemma xf_args n : xfree (parseRuntimeArgs n). Proof. unfold parseRuntimeArgs, skip_arg. xf. Qed.
Lemma xf_search a n : xfree (searchRuntimeArgs a n). Proof. unfold searchRuntimeArgs, search_body. xf. Qed.
Lemma xf_getData a n : xfree (getData a n). Proof. unfold getData, getData_body. xf. Qed.
#[export] Hint Resolve xf_args xf_search xf_getData : xf.
Lemma xf_count n a c f : xfree (COUNT_RUNTIME_ARGTYPE n a c f). Proof. unfold COUNT_RUNTIME_ARGTYPE. xf. Qed.
Lemma xf_CHECK n a c : xfree (CHECK_RUNTIME_ARGTYPE n a c). Proof. unfold CHECK_RUNTIME_ARGTYPE. xf. Qed.
#[export] Hint Resolve xf_count xf_CHECK : xf.
Lemma xf_transfer_args n : xfree (checkNativeTransferArgs n). Proof. unfold checkNativeTransferArgs. xf. Qed.
Lemma xf_deleg_items i n rd : xfree (checkForDelegationItems i n rd). Proof. unfold checkForDelegationItems. xf. Qed.
Lemma xf_system i n : xfree (parseSystemPayment i n). Proof. unfold parseSystemPayment, checkForSystemPaymentArgs. xf. Qed.
Lemma xf_module i n : xfree (parseDelegation_module i n). Proof. unfold parseDelegation_module. cbv zeta. xf. Qed.
Lemma xf_version : xfree parse_version. Proof. unfold parse_version. xf. Qed.
Lemma xf_dtype : xfree parseDeployType. Proof. unfold parseDeployType. xf. Qed.
#[export] Hint Resolve xf_transfer_args xf_deleg_items xf_system xf_module xf_version xf_dtype : xf.
Lemma xf_payment : xfree read_payment. Proof. unfold read_payment, parseModuleBytes_payment. xf. Qed.
Lemma xf_header pk : xfree (read_header_counts pk). Proof. unfold read_header_counts, index_headerpart_deploy. xf. Qed.
#[export] Hint Resolve xf_payment xf_header : xf.

(** ** Deploys: the same object up to the number of screens *)
Definition alike (i j : ditem) : Prop :=
  dtype i = dtype j /\ dspecial i = dspecial j /\ dgeneric i = dgeneric j /\ totalLength i = totalLength j /\ itemOffset i = itemOffset j.
Lemma alike_refl i : alike i i. Proof. repeat split. Qed.
Ltac xb := apply moded_bind_x; [solve [xf]|intros].
Ltac xr := apply xfree_moded; [solve [xf] | intros; try apply alike_refl; auto].

Lemma m_native i n : moded alike (parseNativeTransfer i n).
Proof.
  unfold parseNativeTransfer. xb. cbv zeta. destruct (_ && _).
  - intros e o x. split; [reflexivity|]. cbn. repeat split; destruct (expert e), x; reflexivity.
  - destruct (_ =? 0); xr.
Qed.
Lemma m_deleg_args i n rd ha : moded alike (parseDelegation_args i n rd ha).
Proof.
  unfold parseDelegation_args. xb. xb. xb. intros e o x. unfold bind, ask, ret. cbn [expert with_x].
  split; [destruct (_ && _), (_ && _); reflexivity|].
  destruct (expert e && ha), (x && ha); cbn; repeat split.
Qed.
Lemma m_deleg i n rd : moded alike (parseDelegation i n rd).
Proof. unfold parseDelegation. destruct (_ =? _); [xb|]; apply m_deleg_args. Qed.
Definition alike1 (p q : ditem * Z) : Prop := alike (fst p) (fst q) /\ snd p = snd q.
Definition alike2 (p q : ditem * Z * Z) : Prop := alike1 (fst p) (fst q) /\ snd p = snd q.
Lemma m_entry i : moded alike2 (check_entrypoint i).
Proof.
  unfold check_entrypoint. do 4 xb. apply (moded_bind alike); [apply m_deleg|].
  intros j k J. apply moded_ret. repeat split; apply J.
Qed.
Lemma alike_total t i j : alike i j -> alike (set_total t i) (set_total t j).
Proof. intros (? & ? & ? & ? & ?). repeat split; assumption. Qed.
Lemma alike_special t i j : alike i j -> alike (set_special t i) (set_special t j).
Proof. intros (? & ? & ? & ? & ?). repeat split; assumption. Qed.
Lemma m_session t : moded alike1 (parseDeployItem_session t).
Proof.
  assert (E : forall s i, moded2 alike1 (r <- check_entrypoint i ;; parseRuntimeArgs (snd (fst r)) ;; t <- parseTotalLength s ;; ret (set_total t (fst (fst r)), snd r))
    (r <- check_entrypoint i ;; parseRuntimeArgs (snd (fst r)) ;; t <- parseTotalLength s ;; ret (set_total t (fst (fst r)), snd r))).
  { intros s i. apply (moded_bind alike2); [apply m_entry|]. intros [[a n] p] [[b m] q] [[Ia In] Ip]. cbn [fst snd] in *. subst.
    xb. xb. apply moded_ret. split; [apply alike_total, Ia|reflexivity]. }
  unfold parseDeployItem_session. cbv zeta. repeat match goal with |- context [if ?b then _ else _] => destruct b end.
  - apply (moded_bind alike); [|intros; apply moded_ret; split; auto].
    unfold parseModuleBytes_session. do 3 xb. apply (moded_bind alike); [apply m_deleg|]. intros i j J. do 2 xb. apply moded_ret, alike_total, J.
  - unfold parseStoredContractByHash. xb. xb. xb. apply E.
  - unfold parseStoredContractByName. xb. xb. xb. apply E.
  - apply (moded_bind alike); [|intros; apply moded_ret; split; auto].
    unfold parseTransfer. do 2 xb. apply (moded_bind alike); [apply m_native|]. intros i j J. do 2 xb. apply moded_ret, alike_total, alike_special, J.
  - intros e o x. split; reflexivity.
Qed.
Definition alike_deploy (v w : deploy) : Prop :=
  dheader v = dheader w /\ payment v = payment w /\ alike (session v) (session w) /\ entry_point_offset v = entry_point_offset w.
Lemma m_deploy : moded alike_deploy parser_read_deploy.
Proof.
  unfold parser_read_deploy. do 8 xb. apply (moded_bind alike1); [apply m_session|]. intros i j [J1 J2]. apply moded_ret. repeat split; try apply J1; exact J2.
Qed.

(** ** TransactionV1 *)
Lemma xf_offsets k : forall i, xfree (read_field_offsets k i).
Proof. induction k as [|k IH]; intros i; cbn [read_field_offsets]; xf. Qed.
#[export] Hint Resolve xf_offsets : xf.
Lemma xf_metadata : xfree read_metadata. Proof. unfold read_metadata. xf. Qed.
Lemma xf_bytes : xfree read_bytes. Proof. unfold read_bytes. xf. Qed.
Lemma xf_string : xfree read_string. Proof. exact xf_bytes. Qed.
Lemma xf_field a b : xfree (at_field a b). Proof. unfold at_field. xf. Qed.
Lemma xf_hash32 : xfree read_hash. Proof. unfold read_hash. xf. Qed.
Lemma xf_pk : xfree read_public_key. Proof. unfold read_public_key. xf. Qed.
#[export] Hint Resolve xf_metadata xf_bytes xf_string xf_field xf_hash32 xf_pk : xf.
Lemma xf_bool : xfree read_bool. Proof. unfold read_bool. xf. Qed.
#[export] Hint Resolve xf_bool : xf.
Lemma xf_entity_version : xfree read_entity_version. Proof. unfold read_entity_version. xf. Qed.
Lemma xf_runtime : xfree read_runtime. Proof. unfold read_runtime. xf. Qed.
Lemma xf_sig : xfree read_signature. Proof. unfold read_signature. xf. Qed.
#[export] Hint Resolve xf_entity_version xf_runtime xf_sig : xf.
Lemma xf_v1_header m pm : xfree (read_txV1_header m pm).
Proof. unfold read_txV1_header, read_initiator_address, read_chain_name, read_pricing_mode. xf. Qed.
Lemma xf_sanity a ep t : xfree (check_sanity_native_transfer a ep t).
Proof. unfold check_sanity_native_transfer, must_have. xf. Qed.
#[export] Hint Resolve xf_v1_header xf_sanity : xf.
Lemma xf_v1_args : xfree read_args. Proof. unfold read_args, read_arg, read_clvalue. xf. Qed.
Lemma xf_v1_approvals : xfree read_txV1_approvals. Proof. unfold read_txV1_approvals. xf. Qed.
Lemma xf_sched : xfree read_scheduling. Proof. unfold read_scheduling. xf. Qed.
Lemma xf_key n : xfree (read_field_key n). Proof. unfold read_field_key. xf. Qed.
Lemma xf_entity : xfree read_entity_address. Proof. unfold read_entity_address. xf. Qed.
#[export] Hint Resolve xf_v1_args xf_v1_approvals xf_sched xf_key xf_entity : xf.

Definition fst_eq {A B} (p q : A * B) : Prop := fst p = fst q.
Lemma m_ask {B} (R : B -> B -> Prop) f g : (forall x y, moded2 R (f x) (g y)) -> moded2 R (bind (ask expert) f) (bind (ask expert) g).
Proof. intros H. apply (moded_bind (fun _ _ => True)); [|intros; apply H]. intros e o x. exact (conj eq_refl I). Qed.
Lemma m_stored : moded fst_eq read_stored.
Proof.
  unfold read_stored. xb. apply m_ask. intros x y. xb. repeat match goal with |- context [if ?b =? _ then _ else _] => destruct (b =? _) end;
    try (intros e o z; split; reflexivity); repeat xb; apply moded_ret; reflexivity.
Qed.
Lemma m_target : moded fst_eq read_target.
Proof.
  unfold read_target. do 5 xb. repeat match goal with |- context [if ?b =? _ then _ else _] => destruct (b =? _) end;
    try (intros e o z; split; reflexivity); try (repeat xb; apply moded_ret; reflexivity).
  do 2 xb. apply (moded_bind fst_eq); [apply m_stored|]. intros r r' E. xb. apply moded_ret. exact E.
Qed.
Lemma m_entry_v1 a t : moded fst_eq (read_entry_point a t).
Proof. unfold read_entry_point. do 8 xb. apply m_ask. intros x y. xb. apply moded_ret. reflexivity. Qed.
Definition alike_body (p q : args_v1 * (target * Z) * (Z * Z * Z * Z)) : Prop :=
  fst (fst p) = fst (fst q) /\ fst (snd (fst p)) = fst (snd (fst q)) /\ fst (snd p) = fst (snd q).
Lemma m_body : moded alike_body read_txV1_body.
Proof.
  unfold read_txV1_body. do 5 xb. apply (moded_bind fst_eq); [apply m_target|]. intros t t' E. unfold fst_eq in E. rewrite <- E. xb.
  apply (moded_bind fst_eq); [apply m_entry_v1|]. intros p q F. do 2 xb. apply moded_ret. repeat split; assumption.
Qed.
Definition alike_v1 (v w : txv1) : Prop :=
  tmeta v = tmeta w /\ theader v = theader w /\ tpayload_meta v = tpayload_meta w /\ entry_point_type v = entry_point_type w /\
  custom_entry_point v = custom_entry_point w /\ custom_entry_point_len v = custom_entry_point_len w /\
  ttarget v = ttarget w /\ targs v = targs w /\ num_approvals v = num_approvals w.
Lemma m_v1 : moded alike_v1 parser_read_transactionV1.
Proof.
  unfold parser_read_transactionV1. cbv zeta. do 10 xb. apply (moded_bind alike_body); [apply m_body|].
  intros [[b1 [t nt]] [[[ep ptr] len] ne]] [[b2 [u nu]] [[[ep' ptr'] len'] ne']] (A & T & E). cbn [fst snd] in *.
  injection E as <- <- <-. subst. do 4 xb. apply m_ask. intros x y. apply moded_ret. repeat split.
Qed.

(** ** Parsing *)
Definition alike_txn (t u : txn) : Prop :=
  match t, u with TDeploy v, TDeploy w => alike_deploy v w | TV1 v, TV1 w => alike_v1 v w | _, _ => False end.
Lemma parse_modes pf x y data :
  match parser_parse pf x data, parser_parse pf y data with
  | Ret t, Ret u => alike_txn t u | Fail c, Fail d => c = d | Undef u, Undef w => u = w | _, _ => False end.
Proof.
  unfold parser_parse. cbv zeta. destruct (_ =? 0); [reflexivity|]. destruct data as [|k rest]; [reflexivity|].
  destruct (_ =? 1); [reflexivity|]. generalize (u16 (zlen (k :: rest)) - 1). intros n.
  assert (M : moded alike_txn (parse_content k)).
  { unfold parse_content. destruct (k =? content_Deploy).
    - apply (moded_bind alike_deploy); [apply m_deploy|]. intros v w H. apply moded_ret. exact H.
    - destruct (k =? content_TransactionV1); [|intros e o z; split; reflexivity].
      apply (moded_bind alike_v1); [apply m_v1|]. intros v w H. apply moded_ret. exact H. }
  exact (proj2 (M (ctx_of pf x false 40 rest n) 0 y)).
Qed.

(** Everything but the numbers of screens. *)
Definition uncounted (t : txn) : txn :=
  match t with
  | TDeploy v => let i := session v in
      TDeploy (mkDeploy (dheader v) (payment v) (mkD (dtype i) (dspecial i) (dgeneric i) 0 0 (totalLength i) (itemOffset i)) (entry_point_offset v))
  | TV1 v => TV1 (mkTx (tmeta v) (theader v) (tpayload_meta v) (entry_point_type v) (custom_entry_point v) (custom_entry_point_len v)
                       (ttarget v) (targs v) 0 (num_approvals v))
  end.
Definition fields (o : outcome txn) : outcome txn := match o with Ret t => Ret (uncounted t) | Fail c => Fail c | Undef u => Undef u end.
Lemma alike_uncounted t u : alike_txn t u -> uncounted t = uncounted u.
Proof.
  destruct t as [v|v], u as [w|w]; try contradiction; cbn [alike_txn uncounted]; cbv zeta.
  - intros (E1 & E2 & (F1 & F2 & F3 & F4 & F5) & E4). rewrite E1, E2, F1, F2, F3, F4, F5, E4. reflexivity.
  - intros (E1 & E2 & E3 & E4 & E5 & E6 & E7 & E8 & E9). rewrite E1, E2, E3, E4, E5, E6, E7, E8, E9. reflexivity.
Qed.
Lemma same_fields pf x y data : fields (parser_parse pf x data) = fields (parser_parse pf y data).
Proof.
  pose proof (parse_modes pf x y data) as H. destruct (parser_parse pf x data), (parser_parse pf y data); try contradiction; cbn [fields]; try congruence.
  f_equal. apply alike_uncounted, H.
Qed.
