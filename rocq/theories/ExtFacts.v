(** Bytes after the end: what a step does does not change when the buffer is
    longer, unless it ran into the end of the buffer. *)
From Verif Require Import Base Zxlib Crypto Utils RuntimeArg Deploy DeployUI TxV1 TxV1UI Parser BaseFacts Spec Exec ArgsFacts ReaderFacts RangeFacts BindFacts.
Import S.

(** [e'] is [e] with more bytes at the end of the buffer. *)
Definition longer (e e' : env) : Prop := exists post,
  e' = mkEnv (mem e ++ post) (blen e + zlen post) (hi16 e) (expert e) (wasm e) (okl e) (hash e) (timefmt e) /\ 0 <= blen e.

(** Results that do not depend on where the buffer ends: every result, and the
    errors in [Q]. *)
Definition keeps {A} (Q : Z -> bool) (r : outcome A) : Prop :=
  match r with Ret _ => True | Fail c => Q c = true | Undef _ => False end.
Definition stab {A} (Q : Z -> bool) (p : P A) : Prop := forall e e' o,
  longer e e' -> keeps Q (fst (p e o)) -> p e' o = p e o.

(** No error; the errors without the bit that the two end-of-buffer errors (12
    and 13) have. *)
Definition q0 (c : Z) : bool := false.
Definition qs (c : Z) : bool := negb (Z.testbit c 2).

Lemma stab_weak {A} (p : P A) : stab qs p -> stab q0 p.
Proof. intros H e e' o L K. apply (H e e' o L). destruct (fst (p e o)); cbn in *; auto; discriminate. Qed.

Lemma stab_ret {A} Q (a : A) : stab Q (ret a). Proof. intros e e' o _ _. reflexivity. Qed.
Lemma stab_fail {A} Q c : stab Q (@fail A c). Proof. intros e e' o _ _. reflexivity. Qed.
Lemma stab_undef {A} Q c : stab Q (@undef A c). Proof. intros e e' o _ _. reflexivity. Qed.
Lemma stab_get Q : stab Q get_off. Proof. intros e e' o _ _. reflexivity. Qed.
Lemma stab_set Q x : stab Q (set_off x). Proof. intros e e' o _ _. reflexivity. Qed.
Lemma stab_check Q b c : stab Q (check b c). Proof. intros e e' o _ _. unfold check. destruct b; reflexivity. Qed.
Lemma stab_require Q b c : stab Q (require b c). Proof. intros e e' o _ _. unfold require. destruct b; reflexivity. Qed.
Lemma stab_lift {A} Q (r : outcome A) : stab Q (lift r). Proof. intros e e' o _ _. reflexivity. Qed.
Lemma stab_expert Q : stab Q (ask expert). Proof. intros e e' o (post & -> & _) _. reflexivity. Qed.
Lemma stab_hash Q : stab Q (ask hash). Proof. intros e e' o (post & -> & _) _. reflexivity. Qed.
Lemma stab_time Q : stab Q (ask timefmt). Proof. intros e e' o (post & -> & _) _. reflexivity. Qed.
Lemma stab_hi16 Q : stab Q (ask hi16). Proof. intros e e' o (post & -> & _) _. reflexivity. Qed.
Lemma stab_okl Q : stab Q (ask okl). Proof. intros e e' o (post & -> & _) _. reflexivity. Qed.
Lemma stab_wasm Q : stab Q (ask wasm). Proof. intros e e' o (post & -> & _) _. reflexivity. Qed.

Lemma stab_bind {A B} Q (p : P A) (f : A -> P B) : stab Q p -> (forall a, stab Q (f a)) -> stab Q (bind p f).
Proof.
  intros Hp Hf e e' o L K. specialize (Hp e e' o L). unfold bind in *.
  destruct (p e o) as [[a|c|u] o1]; cbn [fst keeps] in *.
  - rewrite (Hp I). apply (Hf a e e' o1 L K).
  - rewrite (Hp K). reflexivity.
  - destruct K.
Qed.

Lemma stab_try {A B} Q (p : P A) (f : A + Z -> P B) : stab qs p -> (forall a, stab Q (f (inl a))) ->
  (forall x, qs x = true -> stab Q (f (inr x))) -> (forall x e o, qs x = false -> ~ keeps Q (fst (f (inr x) e o))) ->
  stab Q (bind (try p) f).
Proof.
  intros Hp Hl Hr Hn e e' o L K. specialize (Hp e e' o L). unfold bind, try in *.
  destruct (p e o) as [[a|c|u] o1]; cbn [fst keeps] in *.
  - rewrite (Hp I). apply (Hl a e e' o1 L K).
  - destruct (qs c) eqn:E.
    + rewrite (Hp eq_refl). apply (Hr c E e e' o1 L K).
    + destruct (Hn c e o1 E K).
  - destruct K.
Qed.

(** A test of the buffer length, which only a longer buffer passes more often. *)
Lemma stab_bound {B} Q (g : Z -> bool) c (k : P B) : Q c = false -> stab Q k ->
  (forall n m, 0 <= n <= m -> g n = true -> g m = true) -> stab Q (bind (ask blen) (fun n => bind (check (g n) c) (fun _ => k))).
Proof.
  intros Hc Hk Hg e e' o L K. unfold bind, ask, check, ret, fail in *.
  assert (L2 := L). destruct L as (post & E & N). assert (Z0 := zlen_nonneg post).
  destruct (g (blen e)) eqn:G; cbn [fst keeps] in K; [|congruence].
  rewrite (Hg (blen e) (blen e')) by (try exact G; rewrite E; cbn [blen]; lia). exact (Hk e e' o L2 K).
Qed.
Lemma stab_bound_last Q (g : Z -> bool) c : Q c = false ->
  (forall n m, 0 <= n <= m -> g n = true -> g m = true) -> stab Q (bind (ask blen) (fun n => check (g n) c)).
Proof.
  intros Hc Hg e e' o L K. unfold bind, ask, check, ret, fail in *.
  destruct L as (post & E & N). assert (Z0 := zlen_nonneg post).
  destruct (g (blen e)) eqn:G; cbn [fst keeps] in K; [|congruence].
  rewrite (Hg (blen e) (blen e')) by (try exact G; rewrite E; cbn [blen]; lia). reflexivity.
Qed.

Lemma rd_more m post i b : rd m i = Some b -> rd (m ++ post) i = Some b.
Proof.
  unfold rd. intros H. destruct ((0 <=? i) && (i <? zlen m)) eqn:E; [|discriminate].
  apply andb_prop in E. rewrite zlen_app. assert (Z0 := zlen_nonneg post).
  replace ((0 <=? i) && (i <? zlen m + zlen post)) with true by (symmetry; apply andb_true_intro; split; lia).
  rewrite nth_error_app1 by (unfold zlen in E; lia). exact H.
Qed.
Lemma slice_more m post i n b : slice m i n = Some b -> slice (m ++ post) i n = Some b.
Proof.
  unfold slice. intros H. destruct ((0 <=? i) && (0 <=? n) && (i + n <=? zlen m)) eqn:E; [|discriminate].
  apply andb_prop in E. destruct E as [E1 E2]. apply andb_prop in E1. rewrite zlen_app. assert (Z0 := zlen_nonneg post).
  replace ((0 <=? i) && (0 <=? n) && (i + n <=? zlen m + zlen post)) with true
    by (symmetry; apply andb_true_intro; split; [apply andb_true_intro; split|]; lia).
  rewrite <- H. f_equal. unfold zlen in *. rewrite skipn_app, firstn_app.
  replace (Z.to_nat n - List.length (skipn (Z.to_nat i) m))%nat with O by (rewrite skipn_length; lia).
  cbn [firstn]. apply app_nil_r.
Qed.
Lemma stab_mem_at Q i : stab Q (mem_at i).
Proof.
  intros e e' o (post & -> & _) K. unfold mem_at in *. cbn [mem]. destruct (rd (mem e) i) eqn:E; [|destruct K].
  rewrite (rd_more _ _ _ _ E). reflexivity.
Qed.
Lemma stab_mem_slice Q i n : stab Q (mem_slice i n).
Proof.
  intros e e' o (post & -> & _) K. unfold mem_slice in *. cbn [mem]. destruct (slice (mem e) i n) eqn:E; [|destruct K].
  rewrite (slice_more _ _ _ _ _ E). reflexivity.
Qed.
Lemma stab_advance Q n : stab Q (advance n).
Proof. intros e e' o _ _. reflexivity. Qed.
Lemma stab_loop {S R} Q n (body : S -> P (flow S R)) s : (forall s, stab Q (body s)) -> stab Q (loop n body s).
Proof.
  intros Hb e e' o L K. rewrite !loop_iter in *. revert K. generalize (Z.to_nat n). intros k. revert s o.
  induction k as [|k IH]; intros s o K; cbn [iter_loop] in *; [reflexivity|].
  unfold bind in *. specialize (Hb s e e' o L). destruct (body s e o) as [[[s'|r]|c|u] o1]; cbn [fst keeps] in *.
  - rewrite (Hb I). apply IH, K.
  - rewrite (Hb I). reflexivity.
  - rewrite (Hb K). reflexivity.
  - destruct K.
Qed.

Create HintDb stab.
#[export] Hint Resolve stab_ret stab_fail stab_undef stab_get stab_set stab_check stab_require stab_lift stab_expert
  stab_hash stab_time stab_hi16 stab_okl stab_wasm stab_mem_at stab_mem_slice stab_advance : stab.
Ltac grow := let n := fresh in let m := fresh in let H := fresh in intros n m H; rewrite ?Bool.andb_true_iff, ?Bool.negb_true_iff; lia.
Ltac stb :=
  match goal with
  | |- stab _ (bind (ask blen) (fun n => bind (check _ _) _)) => apply stab_bound; [reflexivity | stb | grow]
  | |- stab _ (bind (ask blen) (fun n => check _ _)) => apply stab_bound_last; [reflexivity | grow]
  | |- stab _ (bind (try _) _) => apply stab_try; [stb | intros; stb | intros; stb | intros; try (cbn; discriminate)]
  | |- stab _ (bind _ _) => apply stab_bind; [stb | intros; stb]
  | |- stab _ (loop _ _ _) => apply stab_loop; intros; stb
  | |- stab _ (let '_ := ?x in _) => destruct x; stb
  | |- stab _ (if ?x then _ else _) => destruct x; stb
  | |- stab _ (match ?x with _ => _ end) => destruct x; stb
  | _ => first [solve [eauto with stab] | idtac]
  end.

Lemma stab_read_le k : stab qs (read_le k).
Proof. induction k as [|k IH]; cbn [read_le]; stb. Qed.
Lemma stab_u8 : stab qs readU8. Proof. apply stab_read_le. Qed.
Lemma stab_u16 : stab qs readU16. Proof. apply stab_read_le. Qed.
Lemma stab_u32 : stab qs readU32. Proof. apply stab_read_le. Qed.
Lemma stab_u64 : stab qs readU64. Proof. apply stab_read_le. Qed.
#[export] Hint Resolve stab_weak stab_u8 stab_u16 stab_u32 stab_u64 : stab.
Lemma stab_item : stab qs parse_item. Proof. unfold parse_item. stb. Qed.
Lemma stab_por it p q : stab qs p -> (forall i, stab qs (q i)) -> stab qs (por it p q).
Proof.
  intros Hp Hq e e' o L K. specialize (Hp e e' o L). unfold por, bind, try in *.
  destruct (p e o) as [[a|c|u] o1]; cbn [fst keeps] in *.
  - rewrite (Hp I). apply (Hq a e e' o1 L K).
  - specialize (Hq it e e' o1 L). destruct (q it e o1) as [[b|d|u] o2]; cbn [fst keeps fail] in *.
    + rewrite (Hp K), (Hq I). reflexivity.
    + unfold qs in K. rewrite Z.lor_spec in K.
      assert (qs c = true /\ qs d = true) as [Kc Kd] by (unfold qs; destruct (Z.testbit c 2), (Z.testbit d 2); cbn in *; auto).
      rewrite (Hp Kc), (Hq Kd). reflexivity.
    + destruct K.
  - destruct K.
Qed.
Lemma stab_typebytes f : forall t it, stab qs (parse_additional_typebytes f t it).
Proof.
  induction f as [|f IH]; intros t it; cbn [parse_additional_typebytes]; stb;
    repeat (apply stab_por; intros); auto.
Qed.
#[export] Hint Resolve stab_item stab_typebytes : stab.
Lemma stab_get_type it : stab qs (get_type it). Proof. unfold get_type, check_runtime_type. stb. Qed.
#[export] Hint Resolve stab_get_type : stab.
Lemma stab_total s : stab qs (parseTotalLength s). Proof. unfold parseTotalLength, off32. stb. Qed.
Lemma stab_copy cap : stab qs (copy_item_into_charbuffer cap).
Proof. unfold copy_item_into_charbuffer. stb. Qed.
#[export] Hint Resolve stab_total stab_copy : stab.
Lemma stab_args n : stab qs (parseRuntimeArgs n). Proof. unfold parseRuntimeArgs, skip_arg. stb. Qed.
Lemma stab_search a n : stab qs (searchRuntimeArgs a n). Proof. unfold searchRuntimeArgs, search_body. stb. Qed.
Lemma stab_getData a n : stab qs (getData a n). Proof. unfold getData, getData_body. stb. Qed.
#[export] Hint Resolve stab_args stab_search stab_getData : stab.

(** ** TransactionV1 *)
Lemma stab_offsets k : forall i, stab qs (read_field_offsets k i).
Proof. induction k as [|k IH]; intros i; cbn [read_field_offsets]; stb. Qed.
#[export] Hint Resolve stab_offsets : stab.
Lemma stab_metadata : stab qs read_metadata. Proof. unfold read_metadata. stb. Qed.
Lemma stab_bytes : stab qs read_bytes. Proof. unfold read_bytes. stb. Qed.
Lemma stab_string : stab qs read_string. Proof. exact stab_bytes. Qed.
Lemma stab_field a b : stab qs (at_field a b). Proof. unfold at_field. stb. Qed.
Lemma stab_hash32 : stab qs read_hash. Proof. unfold read_hash. stb. Qed.
Lemma stab_pk : stab qs read_public_key. Proof. unfold read_public_key. stb. Qed.
#[export] Hint Resolve stab_metadata stab_bytes stab_string stab_field stab_hash32 stab_pk : stab.
Lemma stab_bool : stab qs read_bool. Proof. unfold read_bool. stb. Qed.
#[export] Hint Resolve stab_bool : stab.
Lemma stab_version : stab qs read_entity_version. Proof. unfold read_entity_version. stb. Qed.
Lemma stab_runtime : stab qs read_runtime. Proof. unfold read_runtime. stb. Qed.
Lemma stab_sig : stab qs read_signature. Proof. unfold read_signature. stb. Qed.
#[export] Hint Resolve stab_version stab_runtime stab_sig : stab.
Lemma stab_v1_header m pm : stab qs (read_txV1_header m pm).
Proof. unfold read_txV1_header, read_initiator_address, read_chain_name, read_pricing_mode. stb. Qed.
Lemma stab_sanity a ep t : stab qs (check_sanity_native_transfer a ep t).
Proof. unfold check_sanity_native_transfer, must_have. stb. Qed.
#[export] Hint Resolve stab_v1_header stab_sanity : stab.
Lemma stab_v1_args : stab qs read_args. Proof. unfold read_args, read_arg, read_clvalue. stb. Qed.
Lemma stab_v1_target : stab qs read_target. Proof. unfold read_target, read_stored, read_entity_address. stb. Qed.
Lemma stab_v1_entry a t : stab qs (read_entry_point a t). Proof. unfold read_entry_point. stb. Qed.
#[export] Hint Resolve stab_v1_args stab_v1_target stab_v1_entry : stab.
Lemma stab_v1_body : stab qs read_txV1_body. Proof. unfold read_txV1_body, read_field_key, read_scheduling. stb. Qed.
Lemma stab_v1_approvals : stab qs read_txV1_approvals. Proof. unfold read_txV1_approvals. stb. Qed.
#[export] Hint Resolve stab_v1_body stab_v1_approvals : stab.
Lemma stab_v1 : stab qs parser_read_transactionV1.
Proof. unfold parser_read_transactionV1. stb. Qed.
Lemma stab_v1_valid v : stab qs (validateTxV1 v).
Proof. unfold validateTxV1. stb. Qed.
