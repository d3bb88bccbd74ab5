(** Bytes after the end of an accepted transaction. *)
From Verif Require Import Base Zxlib Crypto Utils RuntimeArg Deploy DeployUI TxV1 TxV1UI Parser BaseFacts Spec Exec ArgsFacts ReaderFacts RangeFacts BindFacts OklFacts SpecText SpecDeploy TextFacts Demo TxAccept ExtFacts ExtUI.
Import S.

Lemma longer_ctx pf x w kl data post : longer (ctx_of pf x w kl data (zlen data)) (ctx_of pf x w kl (data ++ post) (zlen (data ++ post))).
Proof. exists post. unfold ctx_of. cbn [mem blen hi16 expert wasm okl hash timefmt]. rewrite zlen_app. split; [reflexivity|apply zlen_nonneg]. Qed.

Lemma stab_Ret {A} Q (p : P A) e e' o a o1 : stab Q p -> longer e e' -> p e o = (Ret a, o1) -> p e' o = (Ret a, o1).
Proof. intros S L H. rewrite (S e e' o L); [exact H|]. rewrite H. exact I. Qed.
Lemma stab_fst {A} Q (p : P A) e e' o a : stab Q p -> longer e e' -> fst (p e o) = Ret a -> fst (p e' o) = Ret a.
Proof. intros S L H. rewrite (S e e' o L); [exact H|]. rewrite H. exact I. Qed.

(** ** TransactionV1 *)
(** an accepted burn has a source *)
Lemma burn_source e o v o' : parser_read_transactionV1 e o = (Ret v, o') -> entry_point_type v = EntryPointBurn ->
  exists d o1, getData (str "source") (num_runtime_args (targs v)) e (u16 (runtime_args_offset (targs v))) = (Ret d, o1).
Proof.
  intros H B. unfold parser_read_transactionV1 in H.
  do 10 (let a := fresh in let o := fresh in let Q := fresh in bx H a o Q; try (clear Q)).
  bx H b o2 BD. do 5 (let a := fresh in let o := fresh in let Q := fresh in bx H a o Q; clear Q).
  destruct b as [[a [t nt]] [[[ep p1] p2] ne]]. apply ret_inv in H. destruct H as [-> _]. cbn [targs entry_point_type] in *. subst ep.
  unfold read_txV1_body in BD. bx BD n o3 R0. bx BD c0 o4 R1. bx BD k0 o5 R2. bx BD aa o6 RA. bx BD k1 o7 R3. bx BD tg o8 RT.
  bx BD k2 o9 R4. bx BD ee o10 EP. bx BD k3 o11 R5. bx BD sc o12 R6. apply ret_inv in BD. destruct BD as [E _]. injection E as <- <- <-.
  cbn [fst] in EP. unfold read_entry_point in EP.
  bx EP w1 q1 E1. bx EP w2 q2 E2. bx EP w3 q3 E3. bx EP w4 q4 E4. bx EP w5 q5 E5. bx EP w6 q6 E6. bx EP w7 q7 E7. bx EP w8 q8 E8. bx EP w9 q9 E9. bx EP w10 q10 E10.
  apply ret_inv in EP. destruct EP as [EP _]. injection EP as <- _ _ _. clear - E10.
  unfold check_sanity_native_transfer in E10. bx E10 sv r1 S0. bx E10 ck r2 S1. bx E10 body r3 S2. cbn [Z.eqb] in S2.
  change (EntryPointBurn =? EntryPointTransfer) with false in S2. cbn in S2.
  bx S2 m1 r4 M1. unfold must_have in M1. bx M1 m2 r5 M2. bx M1 d r6 M3. apply set_off_inv in M2. subst r5. eauto.
Qed.

(** the same, for one buffer and cursor *)
Definition stab_at (e : env) (o : Z) {A} (p : P A) : Prop := forall e', longer e e' -> keeps q0 (fst (p e o)) -> p e' o = p e o.
Lemma stab_at_of {A} e o Q (p : P A) : stab Q p -> stab_at e o p.
Proof. intros H e' L K. apply (H e e' o L). destruct (fst (p e o)); cbn in *; auto; discriminate. Qed.
Lemma stab_at_bind {A B} e o (p : P A) (f : A -> P B) : stab_at e o p -> (forall a o1, p e o = (Ret a, o1) -> stab_at e o1 (f a)) -> stab_at e o (bind p f).
Proof.
  intros Hp Hf e' L K. specialize (Hp e' L). unfold bind in *.
  destruct (p e o) as [[a|c|u] o1] eqn:E; cbn [fst keeps] in *; [|discriminate|destruct K].
  rewrite (Hp I). apply (Hf a o1 eq_refl e' L K).
Qed.
Lemma stab_at_try {A} e o (p : P A) a o1 : stab qs p -> p e o = (Ret a, o1) -> stab_at e o (try p).
Proof. intros H E e' L K. unfold try. rewrite (stab_Ret _ _ _ _ _ _ _ H L E), E. reflexivity. Qed.

Lemma stab_at_args e o v idx : (entry_point_type v = EntryPointBurn ->
    exists d o1, getData (str "source") (num_runtime_args (targs v)) e (u16 (runtime_args_offset (targs v))) = (Ret d, o1)) ->
  stab_at e o (getItem_args v idx).
Proof.
  intros S. destruct (Z.eq_dec (entry_point_type v) EntryPointBurn) as [E|N].
  - destruct (S E) as (d & o1 & G). unfold getItem_args. rewrite E. cbv zeta.
    apply stab_at_bind; [apply (stab_at_of _ _ qs); stb|]. intros [] o2 So. apply set_off_inv in So. subst o2.
    change (stab_at e (u16 (runtime_args_offset (targs v))) (getItem_Burn (num_runtime_args (targs v)) idx)).
    unfold getItem_Burn. apply stab_at_bind; [apply (stab_at_of _ _ qs); stb|]. intros s o2 Gs. injection Gs as <- <-.
    apply stab_at_bind; [apply (stab_at_of _ _ qs); stb|]. intros [] o2 Ck. apply check_inv in Ck. destruct Ck as [_ ->].
    apply stab_at_bind; [eapply stab_at_try; [eauto with stab|exact G]|].
    intros r o2 Tr. unfold try in Tr. rewrite G in Tr. injection Tr as <- <-. apply (stab_at_of _ _ qs). stb.
  - apply (stab_at_of _ _ qs). unfold getItem_args. cbv zeta. apply stab_bind; [stb|]. intros _.
    repeat match goal with |- stab _ (if ?b then _ else _) => destruct b eqn:? end; eauto with stab. lia.
Qed.

Lemma stab_at_ignoring e o k p : stab qs p -> (forall it o1, ignoring_errors k p e o = (Ret it, o1) -> ival it <> VDirect (str "?")) ->
  stab_at e o (ignoring_errors k p).
Proof.
  intros S N. unfold ignoring_errors in *. destruct (p e o) as [[d|c|u] o1] eqn:E.
  - apply stab_at_bind; [exact (stab_at_try e o p d o1 S E)|]. intros. apply (stab_at_of _ _ qs). stb.
  - exfalso. unfold bind, try, ret in N. rewrite E in N. apply (N _ _ eq_refl). reflexivity.
  - intros e' L K. unfold bind, try in K. rewrite E in K. destruct K.
Qed.

(** the two screens whose errors are ignored *)
Definition fee_screen (x : bool) (idx : Z) : bool := x && ((idx =? 6) || (idx =? 7)).
Lemma stab_at_v1 e o v idx : 0 <= idx -> (entry_point_type v = EntryPointBurn ->
    exists d o1, getData (str "source") (num_runtime_args (targs v)) e (u16 (runtime_args_offset (targs v))) = (Ret d, o1)) ->
  (fee_screen (expert e) idx = true -> forall it o1, getItemTxV1 v idx e o = (Ret it, o1) -> ival it <> VDirect (str "?")) ->
  stab_at e o (getItemTxV1 v idx).
Proof.
  intros I B N. unfold getItemTxV1 in *. cbv zeta in *.
  unfold bind at 1, check in N. destruct (idx <? numItems v) eqn:In.
  2:{ intros e' L K. discriminate K. }
  apply stab_at_bind; [apply (stab_at_of _ _ qs); stb|]. intros [] o1 Ck. apply check_inv in Ck. destruct Ck as [_ ->].
  apply stab_at_bind; [apply (stab_at_of _ _ qs); stb|]. intros x o1 X. injection X as <- <-.
  unfold bind at 1, ask, ret at 1 in N. unfold fee_screen, pricing_mode_items in *.
  repeat match goal with
  | |- stab_at _ _ (if ?b then _ else _) => destruct b eqn:?
  | |- stab_at _ _ (let idx := ?b in _) => cbv zeta
  end; try (apply (stab_at_of _ _ qs); stb; fail); try (apply stab_at_args; assumption).
  apply andb_prop in Heqb5. destruct Heqb5 as [X Lt]. rewrite X in *. cbn [andb] in *.
  specialize (N ltac:(lia)). unfold getItem_pricing_mode in *.
  destruct (idx - 6 =? 0); apply stab_at_ignoring; auto using stab_payment_value, stab_gas_value.
Qed.

Lemma items_more t e e' : longer e e' ->
  forall n i o its o1, items_from t i n e o = (Ret its, o1) ->
  (forall k o, i <= k < i + Z.of_nat n -> stab_at e o (getItem t k)) ->
  items_from t i n e' o = (Ret its, o1).
Proof.
  intros L. induction n as [|n IH]; intros i o its o1 H S; cbn [items_from] in *; [exact H|].
  bx H it o2 G. bx H r o3 R. apply ret_inv in H. destruct H as [-> ->].
  rewrite (bind_Ret _ _ _ _ it o2). 2:{ rewrite (S i o ltac:(lia) e' L); [exact G|rewrite G; exact I]. }
  rewrite (bind_Ret _ _ _ _ r o3). 2:{ apply IH; [exact R|]. intros k o' Hk. apply S. lia. }
  reflexivity.
Qed.

(** what the review shows, from what is accepted *)
Lemma accept_more pf x k data post t e e' : zlen (data ++ post) < 65535 -> 
  e = ctx_of pf x false 40 data (zlen data) -> e' = ctx_of pf x false 40 (data ++ post) (zlen (data ++ post)) ->
  forall o1 o2 its o3 u, 0 < zlen data ->
  parse_content k e' 0 = (Ret t, o1) ->
  match t with TDeploy v => validateTxDeploy v | TV1 v => validateTxV1 v end e' o1 = (Ret u, o2) ->
  items_from t 0 (Z.to_nat (getNumItems x t)) e' o2 = (Ret its, o3) ->
  tx_parse pf x (k :: data ++ post) = Ret t.
Proof.
  intros L -> -> o1 o2 its o3 u N P V It. unfold tx_parse. rewrite zlen_cons.
  assert (Z0 := zlen_nonneg post). rewrite zlen_app in *. rewrite u16_small by lia.
  destruct (1 + (zlen data + zlen post) =? 0) eqn:E1; [lia|]. destruct (1 + (zlen data + zlen post) =? 1) eqn:E2; [lia|].
  replace (1 + (zlen data + zlen post) - 1) with (zlen data + zlen post) by lia.
  unfold bind at 1. rewrite P. unfold bind at 1, parser_validate. unfold bind at 1.
  destruct t; rewrite V; unfold bind at 1, ask; cbn [expert ctx_of]; rewrite It; reflexivity.
Qed.

Lemma v1_more pf x data post v : zlen (data ++ post) < 65535 ->
  tx_parse pf x (1 :: data) = Ret (TV1 v) ->
  (forall idx it, fee_screen x idx = true -> tx_getItem pf x 40 (1 :: data) (TV1 v) idx = Ret it -> ival it <> VDirect (str "?")) ->
  tx_parse pf x (1 :: data ++ post) = Ret (TV1 v) /\
  forall kl idx it, 0 <= idx -> tx_getItem pf x kl (1 :: data) (TV1 v) idx = Ret it -> tx_getItem pf x kl (1 :: data ++ post) (TV1 v) idx = Ret it.
Proof.
  intros L H N. assert (Z0 := zlen_nonneg post). assert (Ld : zlen data < 65535) by (rewrite zlen_app in L; lia).
  destruct (accept_inv _ _ _ _ _ Ld H) as (Lp & o1 & o2 & its & o3 & u & PC & VA & It).
  set (e := ctx_of pf x false 40 data (zlen data)) in *. set (e' := ctx_of pf x false 40 (data ++ post) (zlen (data ++ post))).
  assert (LL : longer e e') by apply longer_ctx.
  assert (PC' := PC). apply content_v1 in PC'. destruct PC' as [_ R].
  assert (St : forall k o, 0 <= k -> stab_at e o (getItemTxV1 v k)).
  { intros k o Hk. apply stab_at_v1; [exact Hk|exact (burn_source e 0 v o1 R)|].
    intros F it o4 G. apply (N k it F). rewrite (tx_item_v1 _ _ _ _ _ _ o Ld). fold e. rewrite G. reflexivity. }
  split.
  - eapply (accept_more pf x 1 data post (TV1 v) e e' L eq_refl eq_refl _ _ _ _ _ Lp).
    + unfold parse_content. change (1 =? content_Deploy) with false. change (1 =? content_TransactionV1) with true. cbv iota.
      rewrite (bind_Ret _ _ _ _ v o1); [reflexivity|]. exact (stab_Ret _ _ _ _ _ _ _ stab_v1 LL R).
    + exact (stab_Ret _ _ _ _ _ _ _ (stab_v1_valid v) LL VA).
    + apply (items_more _ _ _ LL _ _ _ _ _ It). intros k o Hk. apply St. lia.
  - intros kl idx it Hi G. rewrite (tx_item_v1 _ _ _ _ _ _ 0 Ld) in G. rewrite (tx_item_v1 _ _ _ _ _ _ 0 L). fold e in G. fold e'.
    rewrite (St idx 0 Hi e' LL); [exact G|]. rewrite G. exact I.
Qed.

(** whatever the screens: what is parsed *)
Lemma v1_parse_more pf x data post v : zlen (data ++ post) < 65535 ->
  parser_parse pf x (1 :: data) = Ret v -> parser_parse pf x (1 :: data ++ post) = Ret v.
Proof.
  intros L H. assert (Z0 := zlen_nonneg post). assert (Ld : zlen data < 65535) by (rewrite zlen_app in L; lia).
  destruct data as [|b data]; [discriminate H|]. remember (b :: data) as dd. assert (dd <> []) by congruence. clear Heqdd.
  assert (dd ++ post <> []) by (destruct dd; [congruence|discriminate]).
  rewrite parse_v1 in H by auto. rewrite parse_v1 by auto. 
  destruct (parser_read_transactionV1 (ctx_of pf x false 40 dd (zlen dd)) 0) as [[w|c|u] o1] eqn:R; try discriminate H.
  rewrite (stab_Ret _ _ _ _ _ _ _ stab_v1 (longer_ctx pf x false 40 dd post) R). exact H.
Qed.

(** ** Deploys *)
Lemma skip_copy cap e o o1 : parse_item e o = (Ret tt, o1) ->
  (exists bs, copy_item_into_charbuffer cap e o = (Ret bs, o1)) \/ (exists o2, copy_item_into_charbuffer cap e o = (Fail 12, o2))
  \/ exists u o2, copy_item_into_charbuffer cap e o = (Undef u, o2).
Proof.
  intros H. unfold parse_item in H. bx H part o2 R. unfold copy_item_into_charbuffer. rewrite (bind_Ret _ _ _ _ _ _ R).
  cbv [bind get_off ask check ret fail advance set_off mem_slice] in *.
  destruct (u32 (o2 + part) <=? blen e); [|discriminate]. injection H as <-.
  destruct ((part <=? cap) && (part <=? blen e - o2)); [|right; left; eauto].
  destruct (slice (mem e) o2 part); [left; eauto | right; right; eauto].
Qed.
Lemma skip_search s a e o o1 : skip_arg e o = (Ret tt, o1) ->
  search_body s a tt e o = (Ret (Next tt), o1) \/ (exists t, search_body s a tt e o = (Ret (Done t), u16 s))
  \/ (exists o2, search_body s a tt e o = (Fail 12, o2)) \/ exists u o2, search_body s a tt e o = (Undef u, o2).
Proof.
  intros H. unfold skip_arg in H. bx H x1 o2 N. bx H x2 o3 V. bx H ty o4 G. apply ret_inv in H. destruct H as [_ ->]. destruct x1, x2.
  unfold search_body. destruct (skip_copy 300 e o o2 N) as [(bs & C)|[(o5 & C)|(u & o5 & C)]].
  - rewrite (bind_Ret _ _ _ _ _ _ C). destruct (name_is bs a).
    + rewrite (bind_Ret _ _ _ _ _ _ V), (bind_Ret _ _ _ _ _ _ G). right. left. exists ty. reflexivity.
    + left. rewrite (bind_Ret _ _ _ _ _ _ V), (bind_Ret _ _ _ _ _ _ G). reflexivity.
  - right. right. left. exists o5. unfold bind. rewrite C. reflexivity.
  - right. right. right. exists u, o5. unfold bind. rewrite C. reflexivity.
Qed.
(** searching arguments that can be read *)
Lemma search_lands a n e p q : in16 p -> parseRuntimeArgs n e p = (Ret tt, q) ->
  match searchRuntimeArgs a n e p with
  | (Ret _, o1) => o1 = p
  | (Fail c, o1) => c = 27 /\ o1 = p \/ c = 12
  | (Undef _, _) => True
  end.
Proof.
  intros I H. unfold parseRuntimeArgs in H. bx H f q1 L. apply ret_inv in H. destruct H as [_ ->].
  rewrite loop_iter in L. unfold searchRuntimeArgs. rewrite step_get_off. unfold bind at 1. rewrite loop_iter.
  assert (K : forall k o, iter_loop k (fun _ : unit => skip_arg;; ret (Next tt)) tt e o = (Ret f, q1) ->
    iter_loop k (search_body p a) tt e o = (Ret (Next tt), q1) \/ (exists t, iter_loop k (search_body p a) tt e o = (Ret (Done t), p))
    \/ (exists o2, iter_loop k (search_body p a) tt e o = (Fail 12, o2)) \/ exists u o2, iter_loop k (search_body p a) tt e o = (Undef u, o2)).
  { induction k as [|k IH]; intros o H; cbn [iter_loop] in *.
    - apply ret_inv in H. destruct H as [_ ->]. left. reflexivity.
    - bx H g o1 Sk. bx Sk w o2 Sk2. apply ret_inv in Sk. destruct Sk as [-> ->]. destruct w.
      destruct (skip_search p a e o o2 Sk2) as [B|[(t & B)|[(o3 & B)|(u & o3 & B)]]].
      + rewrite (bind_Ret _ _ _ _ _ _ B). apply IH, H.
      + right. left. exists t. rewrite (bind_Ret _ _ _ _ _ _ B). unfold ret. rewrite u16_small by exact I. reflexivity.
      + right. right. left. exists o3. unfold bind. rewrite B. reflexivity.
      + right. right. right. exists u, o3. unfold bind. rewrite B. reflexivity. }
  destruct (K _ _ L) as [B|[(t & B)|[(o3 & B)|(u & o3 & B)]]]; rewrite B; cbv [bind set_off ret fail].
  - left. rewrite u16_small by exact I. auto.
  - reflexivity.
  - auto.
  - exact Logic.I.
Qed.

Section readable_args.
Variables (n : Z) (e : env) (p q : Z).
Hypothesis (I : in16 p) (Sk : parseRuntimeArgs n e p = (Ret tt, q)).

(** a step that leaves the cursor at the arguments or runs out of buffer *)
Definition back {A} (m : P A) : Prop :=
  match m e p with (Ret _, o) => o = p | (Fail c, o) => o = p \/ c = 12 | (Undef _, _) => True end.
Lemma back_bind {A B} (m : P A) (f : A -> P B) : back m -> (forall a, back (f a)) -> back (bind m f).
Proof. intros H K. unfold back, bind in *. destruct (m e p) as [[a|c|u] o]; auto. subst o. apply K. Qed.
Lemma back_ret {A} (a : A) : back (ret a). Proof. reflexivity. Qed.
Lemma back_check b c : back (check b c). Proof. unfold back, check. destruct b; cbn; auto. Qed.
Lemma back_search a : back (searchRuntimeArgs a n).
Proof. pose proof (search_lands a n e p q I Sk) as H. unfold back. destruct (searchRuntimeArgs a n e p) as [[t|c|u] o]; tauto. Qed.
Lemma back_CHECK a c : back (CHECK_RUNTIME_ARGTYPE n a c).
Proof. unfold CHECK_RUNTIME_ARGTYPE. apply back_bind; [apply back_search|]. intros. apply back_check. Qed.
Lemma back_COUNT a c f : back (COUNT_RUNTIME_ARGTYPE n a c f).
Proof.
  unfold COUNT_RUNTIME_ARGTYPE, back, bind, try. pose proof (back_search a) as H. unfold back in H.
  destruct (searchRuntimeArgs a n e p) as [[t|x|u] o]; auto.
  - destruct (c (fst t) (snd t)); exact H.
  - destruct H as [->| ->]; [|cbn; auto].
    destruct ((x =? parser_runtimearg_notfound) || (x =? parser_unexpected_type)); cbn; auto.
Qed.
Lemma back_items i rd : back (checkForDelegationItems i n rd).
Proof.
  unfold checkForDelegationItems.
  repeat (first [apply back_ret | apply back_CHECK | apply back_COUNT | apply back_bind; [|intros] |
    match goal with |- back (match ?b with _ => _ end) => destruct b end]).
Qed.

Lemma amount_lands i rd c o : checkForDelegationItems i n rd e p = (Fail c, o) ->
  (c =? parser_runtimearg_notfound) || (c =? parser_unexpected_type) = true ->
  o = p /\ keeps qs (fst (searchRuntimeArgs (str "amount") n e p)).
Proof.
  intros H C. pose proof (back_items i rd) as B. unfold back in B. rewrite H in B.
  assert (N : c <> 12) by (unfold parser_runtimearg_notfound, parser_unexpected_type in C; lia).
  split; [tauto|]. unfold checkForDelegationItems in H. unfold COUNT_RUNTIME_ARGTYPE at 1 in H.
  pose proof (search_lands (str "amount") n e p q I Sk) as L.
  unfold bind at 1 in H. unfold bind at 1, try in H.
  destruct (searchRuntimeArgs (str "amount") n e p) as [[t|x|u] o1]; cbn [fst keeps]; auto.
  - destruct L as [[-> _]| ->]; [reflexivity|]. cbn in H. congruence.
  - discriminate.
Qed.
End readable_args.

Lemma stab_count n a c f : stab qs (COUNT_RUNTIME_ARGTYPE n a c f).
Proof.
  unfold COUNT_RUNTIME_ARGTYPE. stb.
  destruct ((x =? parser_runtimearg_notfound) || (x =? parser_unexpected_type)) eqn:E; [|cbn; congruence].
  apply Bool.orb_true_iff in E. destruct E as [E|E]; apply Z.eqb_eq in E; subst x; discriminate.
Qed.
Lemma stab_CHECK n a c : stab qs (CHECK_RUNTIME_ARGTYPE n a c). Proof. unfold CHECK_RUNTIME_ARGTYPE. stb. Qed.
#[export] Hint Resolve stab_count stab_CHECK : stab.
Lemma stab_transfer_args n : stab qs (checkNativeTransferArgs n). Proof. unfold checkNativeTransferArgs. stb. Qed.
#[export] Hint Resolve stab_transfer_args : stab.
Lemma stab_native i n : stab qs (parseNativeTransfer i n). Proof. unfold parseNativeTransfer. cbv zeta. stb. Qed.
#[export] Hint Resolve stab_native : stab.
Lemma stab_transfer i : stab qs (parseTransfer i). Proof. unfold parseTransfer, off32. stb. Qed.
Lemma stab_system n : stab qs (checkForSystemPaymentArgs n). Proof. unfold checkForSystemPaymentArgs. stb. Qed.
Lemma stab_deleg_items i n rd : stab qs (checkForDelegationItems i n rd). Proof. unfold checkForDelegationItems. stb. Qed.
#[export] Hint Resolve stab_transfer stab_system stab_deleg_items : stab.

(** the payment of an accepted deploy has an amount *)
Lemma payment_more e e' o i o1 : longer e e' -> read_payment e o = (Ret i, o1) -> read_payment e' o = (Ret i, o1).
Proof.
  intros L H. unfold read_payment in *. bx H t o2 T.
  rewrite (bind_Ret _ _ _ _ t o2) by (refine (stab_Ret qs _ _ _ _ _ _ _ L T); unfold parseDeployType; stb).
  bx H u o3 C. rewrite (bind_Ret _ _ _ _ u o3) by (refine (stab_Ret qs _ _ _ _ _ _ _ L C); stb).
  bx H r o4 M. bx H u2 o5 C2. apply ret_inv in H. destruct H as [-> ->].
  apply check_inv in C2. destruct C2 as [C2 ->].
  assert (M' : parseModuleBytes_payment (init_item t) e' o3 = (Ret r, o4)).
  { unfold parseModuleBytes_payment in *. bx M st p1 M1. bx M pi p2 M2. bx M n p3 M3. bx M rr p4 M4. bx M ra p5 M5. bx M tl p6 M6. apply ret_inv in M. destruct M as [-> ->]. cbn [snd] in C2.
    rewrite (bind_Ret _ _ _ _ st p1) by (refine (stab_Ret qs _ _ _ _ _ _ _ L M1); unfold off32; stb).
    rewrite (bind_Ret _ _ _ _ pi p2) by (refine (stab_Ret qs _ _ _ _ _ _ _ L M2); stb).
    rewrite (bind_Ret _ _ _ _ n p3) by (refine (stab_Ret qs _ _ _ _ _ _ _ L M3); stb).
    rewrite (bind_Ret _ _ _ _ rr p4).
    2:{ clear - M4 C2 L. unfold parseSystemPayment in *. destruct (n =? 0); [discriminate|].
        unfold bind at 1, try in M4. unfold bind at 1, try.
        destruct (checkForSystemPaymentArgs n e p3) as [[w|c|u] q] eqn:E; [|exfalso|discriminate].
        - rewrite (stab_Ret qs _ _ _ _ _ _ (stab_system n) L E). exact M4.
        - destruct ((c =? parser_unexpected_number_items) || (c =? parser_runtimearg_notfound) || (c =? parser_unexpected_type)); [|discriminate].
          injection M4 as <- _. discriminate C2. }
    rewrite (bind_Ret _ _ _ _ ra p5) by (refine (stab_Ret qs _ _ _ _ _ _ _ L M5); stb).
    rewrite (bind_Ret _ _ _ _ tl p6) by (refine (stab_Ret qs _ _ _ _ _ _ _ L M6); stb). reflexivity. }
  rewrite (bind_Ret _ _ _ _ _ _ M'). rewrite C2. reflexivity.
Qed.

(** the arguments of a stored contract call, when they are not those of a
    delegation: the review shows their hash *)
Definition hashed (i : ditem) : Prop := dgeneric i = true /\ 1 <= UI_runtime_items i <= 2 /\ 2 <= UI_fixed_items i <= 4 /\ dspecial i <> NativeTransfer.
Lemma deleg_more e e' i n rd p : longer e e' -> in16 p -> UI_runtime_items i = 0 -> dspecial i <> NativeTransfer ->
  forall i' o1, parseDelegation_args i n rd true e p = (Ret i', o1) ->
  (hashed i' -> exists q, parseRuntimeArgs n e p = (Ret tt, q)) -> parseDelegation_args i n rd true e' p = (Ret i', o1).
Proof.
  intros L I0 R0 S0 i' o1 H Sk. unfold parseDelegation_args in *. bx H u o2 C.
  rewrite (bind_Ret _ _ _ _ u o2) by (refine (stab_Ret qs _ _ _ _ _ _ _ L C); stb).
  assert (X : expert e' = expert e) by (destruct L as (post & -> & _); reflexivity).
  unfold bind at 1, try at 1 in H. unfold bind at 1, try at 1.
  destruct (checkForDelegationItems i n rd e o2) as [[w|c|w] o3] eqn:E; [| |discriminate].
  - rewrite (stab_Ret qs _ _ _ _ _ _ (stab_deleg_items i n rd) L E). 
    cbv [bind ret ask] in H |- *. rewrite X. destruct (expert e); exact H.
  - destruct ((c =? parser_runtimearg_notfound) || (c =? parser_unexpected_type)) eqn:Cc; [|discriminate H].
    assert (Hd : exists q, parseRuntimeArgs n e p = (Ret tt, q)).
    { apply Sk. clear Sk. unfold bind at 1 2, try in H. destruct (searchRuntimeArgs (str "amount") n e o3) as [[a|a|a] o4]; [| |discriminate H];
        cbv [bind ret ask] in H; destruct (expert e); cbn in H;
        destruct (dspecial i =? Generic); cbn in H; injection H as <- _; unfold hashed; cbn; rewrite R0; cbv [u32]; repeat match goal with |- context [if ?b then _ else _] => destruct b end; cbn; repeat split; try exact S0; lia. }
    destruct Hd as (q & Hd).
    assert (o2 = p) as ->.
    { destruct rd; [|apply ret_inv in C; tauto]. pose proof (back_CHECK n e p q I0 Hd (str "new_validator") is_pubkey) as B.
      unfold back in B. rewrite C in B. exact B. }
    destruct (amount_lands n e p q I0 Hd _ _ _ _ E Cc) as [-> K].
    assert (Qc : qs c = true).
    { apply Bool.orb_true_iff in Cc. destruct Cc as [Cc|Cc]; apply Z.eqb_eq in Cc; subst c; reflexivity. }
    rewrite (stab_deleg_items i n rd e e' p L) by (rewrite E; exact Qc). rewrite E, Cc.
    unfold bind at 1 2, try in H. unfold bind at 1 2, try. rewrite (stab_search _ _ _ _ _ L K).
    destruct (searchRuntimeArgs (str "amount") n e p) as [[a|a|a] o4]; cbv [bind ret ask] in H |- *; rewrite ?X; try destruct (expert e); exact H.
Qed.
Lemma items_keep i n rd e o i' o1 : checkForDelegationItems i n rd e o = (Ret i', o1) -> itemOffset i' = itemOffset i.
Proof.
  unfold checkForDelegationItems. intros H.
  bx H a1 q1 Q1. destruct a1; [|apply ret_inv in H; destruct H as [-> _]; reflexivity].
  bx H a2 q2 Q2. destruct a2; [|apply ret_inv in H; destruct H as [-> _]; reflexivity].
  bx H a3 q3 Q3. destruct a3; [|apply ret_inv in H; destruct H as [-> _]; reflexivity].
  bx H u1 q4 Q4. bx H u2 q5 Q5. bx H u3 q6 Q6. destruct (dspecial i =? Generic).
  { apply ret_inv in H; destruct H as [-> _]; reflexivity. }
  destruct rd; [bx H u4 q7 Q7|]; apply ret_inv in H; destruct H as [-> _]; reflexivity.
Qed.
Lemma deleg_args_keep i n rd ha e o i' o1 : parseDelegation_args i n rd ha e o = (Ret i', o1) -> itemOffset i' = itemOffset i.
Proof.
  unfold parseDelegation_args. intros H. bx H u o2 C. bx H r o3 T. bx H j o4 M. bx H x o5 X.
  assert (J : itemOffset j = itemOffset i).
  { apply try_inv in T. destruct r as [w|c].
    - apply ret_inv in M. destruct M as [-> ->]. exact (items_keep _ _ _ _ _ _ _ T).
    - destruct (_ || _); [|discriminate M]. bx M a q1 Q1. apply ret_inv in M. destruct M as [-> _]. reflexivity. }
  destruct (x && ha); apply ret_inv in H; destruct H as [-> _]; rewrite <- J; destruct (dspecial j =? Generic); reflexivity.
Qed.

(** a call of a stored contract, in a longer buffer *)
Lemma entry_more e e' i o : longer e e' -> in16 o -> UI_runtime_items i = 0 -> dtype i <> ModuleBytes ->
  forall r o1, check_entrypoint i e o = (Ret r, o1) ->
  (hashed (fst (fst r)) -> exists n p q, readU32 e (u16 (itemOffset (fst (fst r)))) = (Ret n, p) /\ parseRuntimeArgs n e p = (Ret tt, q)) ->
  check_entrypoint i e' o = (Ret r, o1).
Proof.
  intros L I0 R0 D r o1 H Sk. unfold check_entrypoint in *. bx H ep o2 C1. bx H nm o3 C2. bx H io o4 C3. bx H n o5 C4. bx H j o6 C5.
  apply ret_inv in H. destruct H as [-> ->]. cbn [fst] in Sk.
  rewrite (bind_Ret _ _ _ _ ep o2) by exact C1.
  rewrite (bind_Ret _ _ _ _ nm o3) by (refine (stab_Ret qs _ _ _ _ _ _ _ L C2); stb).
  rewrite (bind_Ret _ _ _ _ io o4) by exact C3.
  rewrite (bind_Ret _ _ _ _ n o5) by (refine (stab_Ret qs _ _ _ _ _ _ _ L C4); stb).
  assert (I2 : in16 o2) by (injection C1 as <- <-; exact I0).
  assert (I3 : in16 o3) by (eapply ranged_ok; [|exact I2|exact C2]; auto with rng).
  injection C3 as -> ->.
  assert (I5 : in16 o5) by (eapply ranged_ok; [|exact I3|exact C4]; auto with rng).
  rewrite (bind_Ret _ _ _ _ j o6); [reflexivity|]. revert C5. unfold parseDelegation. cbn [dtype set_special set_itemOffset].
  destruct (dtype i =? ModuleBytes) eqn:E; [apply Z.eqb_eq in E; congruence|]. intros C5.
  refine (deleg_more _ _ _ _ _ _ L I5 _ _ _ _ C5 _); [exact R0| |].
  { cbn [dspecial set_special]. repeat match goal with |- context [if ?b then _ else _] => destruct b end; discriminate. }
  intros Hj. destruct (Sk Hj) as (n' & p & q & A & B).
  rewrite (deleg_args_keep _ _ _ _ _ _ _ _ C5) in A. cbn [itemOffset set_special set_itemOffset] in A. rewrite u16_small in A by exact I3. rewrite A in C4. injection C4 as -> ->. eauto.
Qed.
Lemma session_more e e' t o : longer e e' -> in16 o -> t <> ModuleBytes ->
  forall r o1, parseDeployItem_session t e o = (Ret r, o1) ->
  (hashed (fst r) -> exists n p q, readU32 e (u16 (itemOffset (fst r))) = (Ret n, p) /\ parseRuntimeArgs n e p = (Ret tt, q)) ->
  parseDeployItem_session t e' o = (Ret r, o1).
Proof.
  intros L I0 D r o1 H Sk. unfold parseDeployItem_session in *. cbv zeta in *.
  destruct (t =? ModuleBytes) eqn:E0; [apply Z.eqb_eq in E0; congruence|].
  destruct (_ || _) eqn:E1; [|destruct ((t =? StoredVersionedContractByName) || _) eqn:E2; [|destruct (t =? Transfer) eqn:E3; [|discriminate]]].
  - unfold parseStoredContractByHash in *. bx H s o2 C1. bx H a o3 C2. bx H ver o4 C3. bx H k o5 C4. bx H ar o6 C5. bx H tl o7 C6.
    apply ret_inv in H. destruct H as [-> ->].
    assert (I2 : in16 o2) by (eapply ranged_ok; [|exact I0|exact C1]; unfold off32; rng).
    assert (I3 : in16 o3) by (eapply ranged_ok; [|exact I2|exact C2]; rng).
    assert (I4 : in16 o4) by (eapply ranged_ok; [|exact I3|exact C3]; unfold parse_version; rng).
    rewrite (bind_Ret _ _ _ _ s o2) by (refine (stab_Ret qs _ _ _ _ _ _ _ L C1); unfold off32; stb).
    rewrite (bind_Ret _ _ _ _ a o3) by (refine (stab_Ret qs _ _ _ _ _ _ _ L C2); stb).
    rewrite (bind_Ret _ _ _ _ ver o4) by (refine (stab_Ret qs _ _ _ _ _ _ _ L C3); stb).
    rewrite (bind_Ret _ _ _ _ k o5) by (refine (entry_more e e' (init_item t) o4 L I4 eq_refl D _ _ C4 _); exact Sk).
    rewrite (bind_Ret _ _ _ _ ar o6) by (refine (stab_Ret qs _ _ _ _ _ _ _ L C5); stb).
    rewrite (bind_Ret _ _ _ _ tl o7) by (refine (stab_Ret qs _ _ _ _ _ _ _ L C6); stb). reflexivity.
  - unfold parseStoredContractByName in *. bx H s o2 C1. bx H a o3 C2. bx H ver o4 C3. bx H k o5 C4. bx H ar o6 C5. bx H tl o7 C6.
    apply ret_inv in H. destruct H as [-> ->].
    assert (I2 : in16 o2) by (eapply ranged_ok; [|exact I0|exact C1]; unfold off32; rng).
    assert (I3 : in16 o3) by (eapply ranged_ok; [|exact I2|exact C2]; rng).
    assert (I4 : in16 o4) by (eapply ranged_ok; [|exact I3|exact C3]; unfold parse_version; rng).
    rewrite (bind_Ret _ _ _ _ s o2) by (refine (stab_Ret qs _ _ _ _ _ _ _ L C1); unfold off32; stb).
    rewrite (bind_Ret _ _ _ _ a o3) by (refine (stab_Ret qs _ _ _ _ _ _ _ L C2); stb).
    rewrite (bind_Ret _ _ _ _ ver o4) by (refine (stab_Ret qs _ _ _ _ _ _ _ L C3); stb).
    rewrite (bind_Ret _ _ _ _ k o5) by (refine (entry_more e e' (init_item t) o4 L I4 eq_refl D _ _ C4 _); exact Sk).
    rewrite (bind_Ret _ _ _ _ ar o6) by (refine (stab_Ret qs _ _ _ _ _ _ _ L C5); stb).
    rewrite (bind_Ret _ _ _ _ tl o7) by (refine (stab_Ret qs _ _ _ _ _ _ _ L C6); stb). reflexivity.
  - refine (stab_Ret qs _ _ _ _ _ _ _ L H). stb.
Qed.
Lemma stab_valid_deploy v : stab qs (validateTxDeploy v). Proof. unfold validateTxDeploy. cbv zeta. stb. Qed.

(** the arguments whose hash is shown can be read *)
Lemma hashed_read e v its o o2 o3 : wf e -> parser_read_deploy e 0 = (Ret v, o) ->
  items_from (TDeploy v) 0 (Z.to_nat (getNumItems (expert e) (TDeploy v))) e o2 = (Ret its, o3) ->
  dtype (session v) <> ModuleBytes -> hashed (session v) ->
  exists n p q, readU32 e (u16 (itemOffset (session v))) = (Ret n, p) /\ parseRuntimeArgs n e p = (Ret tt, q).
Proof.
  intros W H It D (G & R & F & Ns). destruct (deploy_inv _ _ _ W H) as (o1 & t & _ & _ & _ & _ & _ & _ & P & At & Ht & S & _ & _ & I1 & I2 & Dt & _).
  apply payment_inv in P; [|exact W|apply u16_range]. destruct P as (q2 & q3 & _ & _ & _ & _ & _ & _ & _ & Pv).
  set (x := expert e) in *. set (i := session v) in *.
  assert (Nm : getNumItems x (TDeploy v) = (if x then 9 else 4) + 1 + UI_fixed_items i + UI_runtime_items i).
  { cbn [getNumItems]. unfold getNumItemsDeploy. fold i. rewrite Pv. cbn [UI_fixed_items UI_runtime_items]. unfold u8. destruct x; rewrite Z.mod_small by lia; lia. }
  set (idx := (if x then 8 else 4) + 1 + UI_fixed_items i + UI_runtime_items i - 1).
  destruct (items_nth _ _ _ _ _ _ _ It) as [_ K]. destruct (K (Z.to_nat idx)) as (it & p1 & p2 & _ & Gi); [rewrite Nm; subst idx; destruct x; lia|].
  rewrite Z.add_0_l, Z2Nat.id in Gi by (subst idx; destruct x; lia).
  cbn [getItem] in Gi. unfold getItemDeploy in Gi. bx Gi x' r1 X. injection X as <- <-. fold x in Gi. cbv zeta in Gi. fold i in Gi.
  bx Gi u r2 C. clear C.
  change (getNumItemsDeploy x v) with (getNumItems x (TDeploy v)) in Gi. rewrite Nm, Pv in Gi. cbn [UI_fixed_items UI_runtime_items dspecial totalLength] in Gi.
  assert (E : u8 (idx - (if x then 8 else 4)) = 1 + UI_fixed_items i + UI_runtime_items i - 1)
    by (unfold u8, idx; destruct x; rewrite Z.mod_small by lia; lia).
  assert (E2 : u8 (u8 (idx - (if x then 8 else 4)) - 1) = UI_fixed_items i + UI_runtime_items i - 1) by (rewrite E; unfold u8; rewrite Z.mod_small by lia; lia).
  assert (forall k, k < 8 -> (x && (idx =? k)) = false) as Nx by (intros k Hk; subst idx; destruct x; cbn [andb]; auto; lia).
  rewrite !Nx in Gi by lia. do 4 (rewrite (proj2 (Z.eqb_neq idx _)) in Gi by (subst idx; destruct x; lia)).
  bx Gi u2 r3 C. change (u16 (0 + 1)) with 1 in Gi. rewrite E2, E in Gi.
  replace (1 + UI_fixed_items i + UI_runtime_items i - 1 <? 1) with false in Gi by lia.
  bx Gi u3 r4 C3. replace (u16 (UI_fixed_items i + UI_runtime_items i)) with (UI_fixed_items i + UI_runtime_items i) in Gi by (symmetry; apply u16_small; lia).
  replace (UI_fixed_items i + UI_runtime_items i - 1 <? UI_fixed_items i + UI_runtime_items i) with true in Gi by lia.
  destruct (dspecial i =? NativeTransfer) eqn:Es; [apply Z.eqb_eq in Es; congruence|].
  destruct (_ || _); [|discriminate Gi]. unfold getItem_Delegation in Gi. bx Gi u4 r5 C4.
  replace (UI_fixed_items i + UI_runtime_items i - 1 <? UI_fixed_items i) with false in Gi by lia.
  bx Gi u5 r6 C5. apply set_off_inv in C5. subst r6. cbv zeta in Gi. bx Gi u6 r7 C6. apply check_inv in C6. destruct C6 as [_ ->].
  rewrite G in Gi. bx Gi n r8 C7.
  replace (u8 (UI_fixed_items i + UI_runtime_items i - 1 - UI_fixed_items i)) with (UI_runtime_items i - 1) in Gi by (unfold u8; rewrite Z.mod_small by lia; lia).
  exists n, r8. assert (X : args_hash (itemOffset i) n (str "execution") e r8 = (Ret it, p2)).
  { assert (UI_runtime_items i = 1 \/ UI_runtime_items i = 2) as [Er|Er] by lia; rewrite Er in Gi; exact Gi. }
  unfold args_hash in X. bx X w r9 A. destruct w. exists r9. split; [exact C7|exact A].
Qed.

Lemma deploy_more pf x data post v : hash32 (p_hash pf) -> bytes data -> zlen (data ++ post) < 65535 ->
  tx_parse pf x (0 :: data) = Ret (TDeploy v) -> dtype (session v) <> ModuleBytes ->
  tx_parse pf x (0 :: data ++ post) = Ret (TDeploy v) /\
  forall kl idx it, tx_getItem pf x kl (0 :: data) (TDeploy v) idx = Ret it -> tx_getItem pf x kl (0 :: data ++ post) (TDeploy v) idx = Ret it.
Proof.
  intros Hh B L H D. assert (Z0 := zlen_nonneg post). assert (Ld : zlen data < 65535) by (rewrite zlen_app in L; lia).
  destruct (accept_inv _ _ _ _ _ Ld H) as (Lp & o1 & o2 & its & o3 & u & PC & VA & It).
  set (e := ctx_of pf x false 40 data (zlen data)) in *. set (e' := ctx_of pf x false 40 (data ++ post) (zlen (data ++ post))).
  assert (W : wf e) by (apply wf_ctx; auto; lia).
  assert (LL : longer e e') by apply longer_ctx.
  apply content_deploy in PC. destruct PC as [_ R].
  assert (R' : parser_read_deploy e' 0 = (Ret v, o1)).
  { pose proof (hashed_read e v its o1 o2 o3 W R It D) as Hs. destruct (deploy_inv _ _ _ W R) as (_ & t0 & _ & _ & _ & _ & _ & _ & _ & _ & _ & _ & _ & _ & _ & _ & Dt & _).
    unfold parser_read_deploy in *. bx R n q1 R1. bx R c1 q2 R2. bx R pk q3 R3. bx R c2 q4 R4. bx R h q5 R5. bx R st q6 R6. bx R pay q7 R7. bx R t q8 R8. bx R s q9 R9.
    apply ret_inv in R. destruct R as [-> ->]. cbn [session] in *.
    injection R1 as <- <-. apply check_inv in R2. destruct R2 as [_ ->].
    unfold bind at 1, ask. unfold bind at 1, check. 
    replace (negb (blen e' =? 0)) with true by (change (blen e') with (zlen (data ++ post)); rewrite zlen_app; lia).
    unfold ret at 1.
    rewrite (bind_Ret _ _ _ _ pk q3) by (refine (stab_Ret qs _ _ _ _ _ _ _ LL R3); stb).
    rewrite (bind_Ret _ _ _ _ c2 q4) by (refine (stab_Ret qs _ _ _ _ _ _ _ LL R4); stb).
    rewrite (bind_Ret _ _ _ _ h q5) by (refine (stab_Ret qs _ _ _ _ _ _ _ LL R5); unfold read_header_counts; stb).
    rewrite (bind_Ret _ _ _ _ st q6) by (refine (stab_Ret qs _ _ _ _ _ _ _ LL R6); stb).
    rewrite (bind_Ret _ _ _ _ pay q7) by (exact (payment_more _ _ _ _ _ LL R7)).
    rewrite (bind_Ret _ _ _ _ t q8) by (refine (stab_Ret qs _ _ _ _ _ _ _ LL R8); unfold parseDeployType; stb).
    assert (I6 : in16 q6) by (apply set_off_inv in R6; subst q6; apply u16_range).
    assert (I7 : in16 q7) by (eapply ranged_ok; [|exact I6|exact R7]; auto with rng).
    assert (I8 : in16 q8) by (eapply ranged_ok; [|exact I7|exact R8]; unfold parseDeployType; rng).
    rewrite (bind_Ret _ _ _ _ s q9); [reflexivity|].
    refine (session_more e e' t q8 LL I8 _ s q9 R9 Hs).
    intros ->. unfold parseDeployItem_session in R9. change (ModuleBytes =? ModuleBytes) with true in R9. cbv iota zeta in R9.
    bx R9 j r1 M. apply ret_inv in R9. destruct R9 as [-> _]. cbn [fst] in D. unfold parseModuleBytes_session in M.
    bx M m1 s1 N1. bx M m2 s2 N2. bx M m3 s3 N3. bx M m4 s4 N4. bx M m5 s5 N5. bx M m6 s6 N6. apply ret_inv in M. destruct M as [-> _].
    apply deleg_post in N4; [|split; reflexivity]. apply D. exact (proj2 N4). }
  split.
  - eapply (accept_more pf x 0 data post (TDeploy v) e e' L eq_refl eq_refl _ _ _ _ _ Lp).
    + unfold parse_content. change (0 =? content_Deploy) with true. cbv iota. rewrite (bind_Ret _ _ _ _ _ _ R'). reflexivity.
    + exact (stab_Ret _ _ _ _ _ _ _ (stab_valid_deploy v) LL VA).
    + apply (items_more _ _ _ LL _ _ _ _ _ It). intros k o Hk. apply (stab_at_of _ _ qs), stab_deploy_item.
  - intros kl idx it G. unfold tx_getItem in *. assert (Z1 := zlen_nonneg data). assert (Z2 := zlen_nonneg (data ++ post)).
    rewrite zlen_cons in G. rewrite (u16_small (1 + zlen data)) in G by lia.
    rewrite zlen_cons. rewrite (u16_small (1 + zlen (data ++ post))) by lia.
    replace (1 + zlen data - 1) with (zlen data) in G by lia. replace (1 + zlen (data ++ post) - 1) with (zlen (data ++ post)) by lia.
    exact (stab_fst _ _ _ _ _ _ (stab_deploy_item v idx) (longer_ctx pf x false kl data post) G).
Qed.
