(** Taking an accepted deploy apart, on arbitrary bytes. *)
From Verif Require Import Base Zxlib Crypto Utils RuntimeArg Deploy DeployUI TxV1 TxV1UI Parser BaseFacts Spec Exec ArgsFacts ReaderFacts RangeFacts.
Import S.

(** Case analysis on the head of a successful run. *)
Ltac pcase1 :=
  match goal with
  | H : (if ?b then _ else _) _ _ = (Ret _, _) |- _ => destruct b eqn:?
  | H : (match ?x with _ => _ end) _ _ = (Ret _, _) |- _ => destruct x eqn:?
  end.
Tactic Notation "bx" hyp(H) ident(a) ident(o) ident(H1) := apply bind_inv in H; destruct H as (a & o & H1 & H).
Ltac pgo := repeat (pinv1 || pcase1).

(** * Number of review items of a session *)
(** [f] is the mathematical value of UI_fixed_items, which may be -1. *)
Definition counts (i : ditem) (f r : Z) : Prop :=
  UI_fixed_items i = u32 f /\ UI_runtime_items i = r /\ -1 <= f <= 5 /\ 0 <= r <= 4 /\ 0 <= f + r.
Definition counted (i : ditem) : Prop := exists f r, counts i f r.
Definition fresh_item (i : ditem) : Prop := UI_fixed_items i = 0 /\ UI_runtime_items i = 0.

Lemma COUNT_post n a c f e o r o' :
  COUNT_RUNTIME_ARGTYPE n a c f e o = (Ret r, o') -> r = inr tt \/ r = inl f \/ r = inl (u16 (f + 1)).
Proof.
  unfold COUNT_RUNTIME_ARGTYPE. intros H. pgo; auto.
Qed.

Lemma native_post n e o r o' : checkNativeTransferArgs n e o = (Ret r, o') -> 0 <= r <= 4.
Proof.
  unfold checkNativeTransferArgs. intros H.
  pgo; repeat match goal with H : COUNT_RUNTIME_ARGTYPE _ _ _ _ _ _ = _ |- _ => apply COUNT_post in H end;
  repeat match goal with H : _ \/ _ |- _ => destruct H end; try discriminate;
  repeat match goal with H : inl _ = inl _ |- _ => injection H as H end; subst; unfold u16; cbn; lia.
Qed.

Lemma checkdel_post i n rd e o r o' :
  fresh_item i -> checkForDelegationItems i n rd e o = (Ret r, o') ->
  counted r /\ dtype r = dtype i /\ dspecial r = dspecial i.
Proof.
  intros [F R] H. unfold checkForDelegationItems in H.
  pgo; repeat match goal with H : COUNT_RUNTIME_ARGTYPE _ _ _ _ _ _ = _ |- _ => apply COUNT_post in H end;
  repeat match goal with H : _ \/ _ |- _ => destruct H end; try discriminate;
  repeat match goal with H : inl _ = inl _ |- _ => injection H as H end; subst;
  (split; [|split; reflexivity]); unfold counted, counts, add_runtime, set_generic, set_fixed; cbn [UI_fixed_items UI_runtime_items];
  rewrite ?F, ?R;
  match goal with
  | |- exists f r, u32 (?a - 1) = _ /\ _ => exists (a - 1), 2; unfold u16, u32; cbn; lia
  | |- exists f r, _ /\ u32 (0 + ?n) = _ /\ _ => exists 0, n; unfold u32; cbn; lia
  | |- _ => exists 0, 0; unfold u32; cbn; lia
  end.
Qed.

Lemma deleg_args_post i n rd ha e o r o' :
  fresh_item i -> parseDelegation_args i n rd ha e o = (Ret r, o') ->
  counted r /\ dtype r = dtype i /\ dspecial r = dspecial i.
Proof.
  intros F H. unfold parseDelegation_args in H.
  assert (K1 : forall j, counted j -> counted (if dspecial j =? Generic then set_generic true j else j)).
  { intros j (f & r1 & C). destruct (dspecial j =? Generic); exists f, r1; exact C. }
  assert (K2 : forall j k, counted j -> 0 <= k <= 4 -> counted (set_fixed k j)).
  { intros j k (f & r1 & C) Hk. exists k, r1. unfold counts, set_fixed in *. cbn [UI_fixed_items UI_runtime_items].
    rewrite u32_small by lia. lia. }
  apply bind_inv in H. destruct H as (u & o1 & _ & H).
  apply bind_inv in H. destruct H as (tr & o2 & T & H).
  apply bind_inv in H. destruct H as (i1 & o3 & M & H).
  assert (C1 : counted i1 /\ dtype i1 = dtype i /\ dspecial i1 = dspecial i).
  { apply try_inv in T. destruct tr as [i'|x].
    - apply checkdel_post in T; auto. pinv. exact T.
    - destruct F as [F R]. pgo; (split; [|split; reflexivity]); unfold counted, counts, add_runtime, set_generic, set_fixed;
      cbn [UI_fixed_items UI_runtime_items]; rewrite ?F, ?R;
      match goal with |- context [match ?a with inl _ => 2 | inr _ => 1 end] => destruct a end; eexists 2, _; cbn; split; try reflexivity; split; try reflexivity; lia. }
  destruct C1 as (C1 & D & S).
  apply bind_inv in H. destruct H as (x & o4 & _ & H).
  destruct (x && ha); apply ret_inv in H; destruct H as [-> _].
  - split; [|destruct (dspecial i1 =? Generic); auto]. apply K2; [apply K1; exact C1|].
    destruct (dgeneric _), (_ || _); lia.
  - split; [apply K1; exact C1|]. destruct (dspecial i1 =? Generic); auto.
Qed.

Lemma deleg_post i n rd e o r o' :
  fresh_item i -> parseDelegation i n rd e o = (Ret r, o') -> counted r /\ dtype r = dtype i.
Proof.
  intros F H. unfold parseDelegation in H. destruct (dtype i =? ModuleBytes).
  - apply bind_inv in H. destruct H as (m & o1 & M & H). apply deleg_args_post in H.
    + assert (D : dtype (fst (fst m)) = dtype i).
      { unfold parseDelegation_module in M. pgo; reflexivity. }
      intuition congruence.
    + unfold parseDelegation_module in M. pgo; exact F.
  - apply deleg_args_post in H; intuition.
Qed.

Lemma parseNative_post i n e o r o' :
  fresh_item i -> parseNativeTransfer i n e o = (Ret r, o') -> counted r /\ dtype r = dtype i.
Proof.
  intros [F R] H. unfold parseNativeTransfer in H. apply bind_inv in H. destruct H as (fd & o1 & N & H).
  apply native_post in N.
  pgo; (split; [|reflexivity]); unfold counted, counts, add_runtime, set_generic; cbn [UI_fixed_items UI_runtime_items]; rewrite F, R.
  - assert (n mod 4294967296 = fd) by (unfold u32 in *; lia).
    destruct (expert e); [exists 0, fd | exists 0, 2]; cbn; unfold u32; lia.
  - exists 0, 1; unfold u32; cbn; lia.
Qed.

(** * Lengths *)
Lemma total_post start e o t o' p :
  in16 o -> in16 p -> start = p + 1 + 65536 * hi16 e -> parseTotalLength start e o = (Ret t, o') ->
  t = o - p /\ o' = o /\ p + 1 < o.
Proof.
  intros I J -> H. unfold parseTotalLength, off32 in H. pinv. unfold in16 in *.
  rewrite u32_small by lia. lia.
Qed.

(** cursors reached by successful steps *)
Ltac rok := repeat match goal with
  | H : ?q ?e ?o = (Ret _, ?o'), I : in16 ?o |- _ =>
      lazymatch goal with _ : in16 o' |- _ => fail | _ =>
        assert (in16 o') by (eapply (ranged_ok q e o); [solve [auto with rng] | exact I | exact H]) end
  end.
Ltac total p := match goal with H : parseTotalLength _ _ _ = _ |- _ =>
    apply (total_post _ _ _ _ _ (p - 1)) in H; [|assumption|unfold in16 in *; lia|lia] end.

Lemma session_total e p t s o2 :
  in16 p -> parseDeployItem_session t e p = (Ret s, o2) -> 1 <= p ->
  totalLength (fst s) = o2 - (p - 1) /\ p < o2 /\ dtype (fst s) = t /\ counted (fst s).
Proof.
  intros I H Hp. assert (F : fresh_item (init_item t)) by (split; reflexivity).
  assert (I' : in16 (u16 (p + 32))) by apply u16_range.
  unfold parseDeployItem_session in H.
  destruct (t =? ModuleBytes) eqn:T0; [|destruct (_ || _) eqn:T1; [|destruct ((t =? StoredVersionedContractByName) || _) eqn:T2; [|destruct (t =? Transfer) eqn:T3; [|discriminate]]]].
  - unfold parseModuleBytes_session, off32 in H. pinv. rok. total p. cbn [fst].
    match goal with H : parseDelegation _ _ _ _ _ = _ |- _ => apply deleg_post in H; [|auto]; destruct H as [HC HD] end.
    split; [|split; [|split; [exact HD|exact HC]]]; cbn; lia.
  - unfold parseStoredContractByHash, check_entrypoint, off32 in H. pgo; rok; total p; cbn [fst];
    match goal with H : parseDelegation _ _ _ _ _ = _ |- _ => apply deleg_post in H; [|auto]; destruct H as [HC HD] end;
    (split; [|split; [|split; [exact HD|exact HC]]]; cbn; lia).
  - unfold parseStoredContractByName, check_entrypoint, off32 in H. pgo; rok; total p; cbn [fst];
    match goal with H : parseDelegation _ _ _ _ _ = _ |- _ => apply deleg_post in H; [|auto]; destruct H as [HC HD] end;
    (split; [|split; [|split; [exact HD|exact HC]]]; cbn; lia).
  - unfold parseTransfer, off32 in H. pinv. rok. total p. cbn [fst].
    match goal with H : parseNativeTransfer _ _ _ _ = _ |- _ => apply parseNative_post in H; [|auto]; destruct H as [HC HD] end.
    split; [|split; [|split; [exact HD|exact HC]]]; cbn; lia.
Qed.

(** * The payment *)
Lemma search_off a n e o r o' : in16 o -> searchRuntimeArgs a n e o = (Ret r, o') -> o' = o.
Proof.
  intros I H. unfold searchRuntimeArgs in H. bx H s0 o1 G. bx H f o2 L. pinv. rewrite loop_iter in L.
  assert (K : forall s0 k o1 f o2, iter_loop k (search_body s0 a) tt e o1 = (Ret f, o2) ->
               match f with Done _ => o2 = u16 s0 | Next _ => True end).
  { clear. intros s0; induction k as [|k IH]; intros o1 f o2 H; cbn [iter_loop] in H; [pinv; auto|].
    bx H g o3 B. unfold search_body in B. pgo; [reflexivity|]. eapply IH; eauto. }
  apply K in L. destruct f; pinv. apply u16_small; exact I.
Qed.

Lemma payment_inv e p i o1 :
  wf e -> in16 p -> read_payment e p = (Ret i, o1) ->
  exists o2 o3,
    at_ e p [0] /\ parse_item e (p + 1) = (Ret tt, o2) /\ readU32 e o2 = (Ret 1, o3) /\
    (exists it, searchRuntimeArgs (str "amount") 1 e o3 = (Ret (8, it), o3)) /\
    parseRuntimeArgs 1 e o3 = (Ret tt, o1) /\
    totalLength i = o1 - p /\ p + 1 < o1 /\
    i = mkD 0 1 false 0 1 (o1 - p) 0.
Proof.
  intros W I H. unfold read_payment, parseDeployType in H. pinv.
  match goal with H : readU8 _ _ = _ |- _ => apply readU8_inv in H; auto; destruct H as (V & A0 & L & ->) end.
  match goal with H : (?a =? ModuleBytes) = true |- _ => assert (a = 0) by (unfold ModuleBytes in H; lia); subst a end.
  match goal with H : parseModuleBytes_payment _ _ _ = _ |- _ => rename H into M end.
  assert (I1 : in16 (p + 1)) by (pose proof (wf_max e W); unfold in16 in *; lia).
  unfold parseModuleBytes_payment, off32 in M. pinv. cbn [fst snd] in *. subst.
  match goal with H : parseSystemPayment _ _ _ _ = _ |- _ => rename H into SP end.
  unfold parseSystemPayment in SP. pgo; cbn [fst snd] in *; try discriminate.
  match goal with H : try _ _ _ = _ |- _ => apply try_inv in H; rename H into CK end.
  unfold checkForSystemPaymentArgs, CHECK_RUNTIME_ARGTYPE in CK. pinv.
  match goal with H : (?a =? 1) = true |- _ => apply Z.eqb_eq in H; subst a end.
  match goal with H : searchRuntimeArgs _ _ _ _ = (Ret ?r, _) |- _ =>
    destruct r as [ty it]; cbn [fst snd] in *; rename H into SE end.
  rok. apply search_off in SE as SO; [|assumption]. subst.
  match goal with H : parseTotalLength _ _ _ = _ |- _ =>
    apply (total_post _ _ _ _ _ p) in H; [|assumption|assumption|lia]; destruct H as (-> & -> & ?) end.
  assert (ty = 8) as -> by (unfold is_u512, TAG_U512 in *; lia).
  repeat match goal with u : unit |- _ => destruct u end.
  do 2 eexists. split; [exact A0|]. split; [eassumption|]. split; [eassumption|].
  split; [eexists; eassumption|]. split; [eassumption|]. split; [reflexivity|]. split; [assumption|]. reflexivity.
Qed.

(** * The whole deploy *)
Lemma index_inv h p e o r o' : index_headerpart_deploy h p e o = (Ret r, o') ->
  exists x, o' = u16 x /\ o' <= blen e /\
    x = match p with
        | header_pubkey => 0 | header_timestamp => pubkeyLen h | header_ttl => pubkeyLen h + 8
        | header_gasprice => pubkeyLen h + 8 + 8 | header_bodyhash => pubkeyLen h + 8 + 8 + 8
        | header_deps => pubkeyLen h + 56 | header_chainname => pubkeyLen h + 56 + depsLen h end.
Proof. unfold index_headerpart_deploy. intros H. pinv. eexists; split; [reflexivity|]. split; [lia|reflexivity]. Qed.

Lemma deploy_inv e v o2 :
  wf e -> parser_read_deploy e 0 = (Ret v, o2) ->
  let h := dheader v in
  let p := u16 (header_length_deploy h + 32) in
  exists o1 t,
    at_ e 0 [pubkeytype h] /\ (pubkeytype h = 1 \/ pubkeytype h = 2) /\
    0 <= lenDependencies h < 2 ^ 32 /\ 0 <= lenChainName h < 2 ^ 32 /\
    at_ e (pubkeyLen h + 56) (le 4 (lenDependencies h)) /\
    at_ e (u16 (pubkeyLen h + 56 + depsLen h)) (le 4 (lenChainName h)) /\
    read_payment e p = (Ret (payment v), o1) /\
    at_ e o1 [t] /\ 0 <= t < 6 /\
    parseDeployItem_session t e (o1 + 1) = (Ret (session v, entry_point_offset v), o2) /\
    totalLength (session v) = o2 - o1 /\ o1 + 1 < o2 /\ in16 o1 /\ in16 o2 /\
    dtype (session v) = t /\ counted (session v).
Proof.
  intros W H. unfold parser_read_deploy in H. pinv. cbn [dheader payment session entry_point_offset].
  assert (I0 : in16 0) by (unfold in16; lia).
  match goal with H : readU8 _ _ = (Ret ?k, _) |- _ => rename k into pk; apply readU8_inv in H; auto; destruct H as (V & A0 & L & ->) end.
  match goal with H : read_header_counts _ _ _ = _ |- _ => rename H into HC end.
  unfold read_header_counts in HC.
  bx HC u1 c1 X1. bx HC nd c2 R1. bx HC u2 c3 X2. bx HC nc c4 R2. apply ret_inv in HC. destruct HC as [-> ->].
  apply index_inv in X1. destruct X1 as (q1 & -> & L1 & X1).
  apply index_inv in X2. destruct X2 as (q2 & -> & L2 & X2).
  assert (PK : pubkeyLen (mkHeader pk 0 0) = 33 \/ pubkeyLen (mkHeader pk 0 0) = 34)
    by (unfold pubkeyLen; cbn [pubkeytype]; destruct (pk =? 2); lia).
  apply readU32_inv in R1; [|auto|apply u16_range]. destruct R1 as (V1 & B1 & C1 & ->).
  apply readU32_inv in R2; [|auto|apply u16_range]. destruct R2 as (V2 & B2 & C2 & ->).
  match goal with H : read_payment _ _ = _ |- _ => rename H into RP end.
  match goal with H : parseDeployType _ _ = _ |- _ => rename H into RT end.
  match goal with H : parseDeployItem_session _ _ _ = _ |- _ => rename H into RS end.
  unfold parseDeployType in RT. pinv.
  match goal with H : readU8 _ _ = (Ret ?t, _) |- _ => rename H into RT; rename t into ty end.
  assert (Ip : in16 (u16 (header_length_deploy (mkHeader pk nd nc) + BLAKE2B_256_SIZE))) by apply u16_range.
  rok. apply readU8_inv in RT; auto. destruct RT as (V3 & B3 & C3 & ->).
  pose proof RS as RS'. apply session_total in RS'; [|auto|unfold in16 in *; lia].
  destruct RS' as (T1 & T2 & T3 & T4).
  match goal with H : parseDeployItem_session _ _ _ = (Ret ?r, _) |- _ => destruct r as [si ep]; cbn [fst snd] in * end.
  match goal with H : read_payment _ _ = (_, ?q) |- _ => exists q, ty end.
  assert (TY : ty < 6).
  { unfold parseDeployItem_session, ModuleBytes, StoredVersionedContractByHash, StoredContractByHash,
      StoredVersionedContractByName, StoredContractByName, Transfer in RS.
    clear - RS V3. pgo; lia. }
  rewrite u16_small in B1 by lia.
  split; [exact A0|]. split; [cbn [pubkeytype]; lia|].
  split; [exact V1|]. split; [exact V2|]. split; [exact B1|]. split; [exact B2|].
  split; [exact RP|]. split; [exact B3|]. split; [lia|]. split; [exact RS|].
  split; [lia|]. split; [lia|]. split; [assumption|]. split; [assumption|]. split; [exact T3|exact T4].
Qed.

(** * Acceptance *)
Lemma validate_inv e v o r o' :
  wf e -> validateTxDeploy v e o = (Ret r, o') ->
  let hl := header_length_deploy (dheader v) in
  exists hdr dh body bh,
    slice (mem e) 0 hl = Some hdr /\ slice (mem e) hl 32 = Some dh /\ hash e hdr = dh /\
    slice (mem e) (hl + 32) (u32 (totalLength (payment v) + totalLength (session v))) = Some body /\
    slice (mem e) (pubkeyLen (dheader v) + 24) 32 = Some bh /\ hash e body = bh.
Proof.
  intros W H hl. unfold validateTxDeploy in H.
  bx H Hh o1 X1. bx H hdr o2 X2. bx H dh o3 X3. bx H u1 o4 X4. bx H body o5 X5. bx H u2 o6 X6. bx H oo o7 X7. bx H bh o8 X8.
  pinv.
  match goal with H : index_headerpart_deploy _ _ _ _ = _ |- _ => apply index_inv in H; destruct H as (q & -> & L & ->) end.
  assert (PK : pubkeyLen (dheader v) = 33 \/ pubkeyLen (dheader v) = 34)
    by (unfold pubkeyLen; destruct (_ =? 2); lia).
  rewrite u16_small in X8 by lia.
  pose proof (slice_bounds _ _ _ _ X3) as Bd. pose proof (wf_max e W) as Mx. rewrite (wf_len e W) in Mx.
  fold hl in X2, X3, X5. rewrite u16_small in X5 by (change (zlen (mem e)) with (zlen (mem e)) in *; lia).
  repeat match goal with H : list_eqb _ _ = true |- _ => apply list_eqb_eq in H end.
  exists hdr, dh, body, bh. repeat (split; [eassumption || congruence|]).
  replace (pubkeyLen (dheader v) + 24) with (pubkeyLen (dheader v) + 8 + 8 + 8) by lia. auto.
Qed.

Lemma accept_inv pf x k data t :
  zlen data < 65535 -> tx_parse pf x (k :: data) = Ret t ->
  let e := ctx_of pf x false 40 data (zlen data) in
  0 < zlen data /\
  exists o1 o2 its o3 u,
    parse_content k e 0 = (Ret t, o1) /\
    match t with TDeploy v => validateTxDeploy v | TV1 v => validateTxV1 v end e o1 = (Ret u, o2) /\
    items_from t 0 (Z.to_nat (getNumItems x t)) e o2 = (Ret its, o3).
Proof.
  intros L H e. unfold tx_parse in H. pose proof (zlen_nonneg data) as N.
  rewrite zlen_cons, u16_small in H by lia.
  replace (1 + zlen data - 1) with (zlen data) in H by lia. fold e in H.
  destruct (1 + zlen data =? 0); [discriminate|]. destruct (1 + zlen data =? 1) eqn:E1; [discriminate|].
  split; [lia|].
  destruct ((t0 <- parse_content k;; parser_validate t0;; ret t0) e 0) as [r o] eqn:R. cbn [fst] in H. subst r.
  bx R t1 o1 C. bx R its o2 V. apply ret_inv in R. destruct R as [-> ->].
  unfold parser_validate in V. bx V u o3 V1. bx V x0 o4 V2. apply ask_inv in V2. destruct V2 as [-> ->].
  eauto 10.
Qed.

Lemma content_deploy k e v o : parse_content k e 0 = (Ret (TDeploy v), o) -> k = 0 /\ parser_read_deploy e 0 = (Ret v, o).
Proof.
  unfold parse_content, content_Deploy, content_TransactionV1. intros H. pgo; try discriminate.
  match goal with H : TDeploy _ = TDeploy _ |- _ => injection H as -> end. split; [lia|assumption].
Qed.

(** items do not depend on the cursor at which they are asked for *)
Lemma item_any_off v idx e o o' : fst (getItemDeploy v idx e o) = fst (getItemDeploy v idx e o').
Proof.
  unfold getItemDeploy, index_headerpart_deploy.
  cbv [bind ask check ret set_off fst].
  repeat match goal with |- context [if ?b then _ else _] => destruct b end; reflexivity.
Qed.

Lemma items_nth t e : forall n i o its o', items_from t i n e o = (Ret its, o') ->
  List.length its = n /\
  forall k, (k < n)%nat -> exists it o1 o2, nth_error its k = Some it /\ getItem t (i + Z.of_nat k) e o1 = (Ret it, o2).
Proof.
  induction n as [|n IH]; intros i o its o' H; cbn [items_from] in H.
  - apply ret_inv in H. destruct H as [-> _]. split; [reflexivity|]. intros k Hk. lia.
  - bx H it o1 G. bx H r o2 R. apply ret_inv in H. destruct H as [-> ->].
    destruct (IH _ _ _ _ R) as [L K]. split; [cbn; congruence|]. intros [|k] Hk.
    + exists it, o, o1. split; [reflexivity|]. rewrite Z.add_0_r. exact G.
    + destruct (K k ltac:(lia)) as (j & p & q & N & E). exists j, p, q. split; [exact N|].
      replace (i + Z.of_nat (Datatypes.S k)) with (i + 1 + Z.of_nat k) by lia. exact E.
Qed.

(** * Readers of length-prefixed items, backwards *)
Lemma at_bytes e o bs : wf e -> at_ e o bs -> bytes bs.
Proof. intros W A. exact (slice_bytes _ _ _ _ (wf_bytes e W) A). Qed.

Lemma item_split e o len :
  wf e -> in16 o -> 0 <= len < 2 ^ 32 -> at_ e o (le 4 len) -> len <= blen e - (o + 4) ->
  exists bs, at_ e o (lv bs) /\ zlen bs = len.
Proof.
  intros W I V A L. unfold in16 in I. rewrite (wf_len e W) in L.
  destruct (slice_total (mem e) (o + 4) len) as (bs & Sl); [lia|lia|lia|].
  pose proof (slice_len _ _ _ _ Sl) as Z. exists bs. split; [|exact Z].
  apply at_lv. rewrite Z. split; [exact A|]. unfold at_. rewrite Z. exact Sl.
Qed.

Lemma copy_item_inv cap e o bs o' :
  wf e -> in16 o -> copy_item_into_charbuffer cap e o = (Ret bs, o') ->
  at_ e o (lv bs) /\ zlen bs <= cap /\ o' = o + zlen (lv bs).
Proof.
  intros W I H. unfold copy_item_into_charbuffer in H.
  bx H part o1 R. bx H q o2 G. bx H n o3 Nn. bx H u o4 C. bx H b o5 Sl. bx H u2 o6 A. pinv.
  apply readU32_inv in R; auto. destruct R as (V & At & L & ->).
  pose proof (slice_len _ _ _ _ Sl) as Z. pose proof (zlen_nonneg b).
  assert (A : at_ e o (lv b)).
  { apply at_lv. rewrite Z. split; [exact At|]. unfold at_. rewrite Z. exact Sl. }
  split; [exact A|]. split; [lia|]. rewrite zlen_lv. pose proof (at_bound _ _ _ W A) as B. rewrite zlen_lv in B.
  rewrite u16_small by lia. lia.
Qed.

(** * The binding theorem *)
Lemma slice_app m a n : forall b x y, slice m a n = Some x -> slice m (a + n) b = Some y -> slice m a (n + b) = Some (x ++ y).
Proof.
  intros b x y Hx Hy.
  pose proof (slice_len _ _ _ _ Hx) as Lx. pose proof (slice_len _ _ _ _ Hy) as Ly.
  pose (e := mkEnv m 0 0 false false 0 (fun x => x) (fun _ => None)).
  assert (at_ e a (x ++ y)) as A.
  { apply at_app. unfold at_. rewrite Lx, Ly. split; assumption. }
  unfold at_ in A. rewrite zlen_app, Lx, Ly in A. exact A.
Qed.
Lemma slice_0 m n x : slice m 0 n = Some x -> exists r, m = x ++ r.
Proof.
  intros H. apply slice_Some in H. destruct H as (pre & post & -> & L & _).
  destruct pre; [|rewrite zlen_cons in L; pose proof (zlen_nonneg pre); lia]. eexists; reflexivity.
Qed.

Lemma header_len_range h : 0 <= header_length_deploy h < 65536.
Proof. apply u16_range. Qed.

(** the shape of an accepted deploy *)
Lemma accepted_deploy pf x data v :
  (forall y, zlen (p_hash pf y) = 32 /\ bytes (p_hash pf y)) -> bytes data -> zlen data < 65535 ->
  tx_parse pf x (0 :: data) = Ret (TDeploy v) ->
  let e := ctx_of pf x false 40 data (zlen data) in
  let hl := header_length_deploy (dheader v) in
  wf e /\
  exists o1 o2 t o3 its o4 hdr dh body bh,
    parser_read_deploy e 0 = (Ret v, o2) /\
    read_payment e (hl + 32) = (Ret (payment v), o1) /\
    at_ e o1 [t] /\ 0 <= t < 6 /\
    parseDeployItem_session t e (o1 + 1) = (Ret (session v, entry_point_offset v), o2) /\
    dtype (session v) = t /\ counted (session v) /\
    items_from (TDeploy v) 0 (Z.to_nat (getNumItems x (TDeploy v))) e o3 = (Ret its, o4) /\
    hl + 33 < o1 /\ o1 + 1 < o2 /\ o2 <= zlen data /\
    totalLength (payment v) = o1 - (hl + 32) /\ totalLength (session v) = o2 - o1 /\
    (pubkeytype (dheader v) = 1 \/ pubkeytype (dheader v) = 2) /\ at_ e 0 [pubkeytype (dheader v)] /\
    slice data 0 hl = Some hdr /\ slice data hl 32 = Some dh /\ p_hash pf hdr = dh /\
    slice data (hl + 32) (o2 - (hl + 32)) = Some body /\
    slice data (pubkeyLen (dheader v) + 24) 32 = Some bh /\ p_hash pf body = bh.
Proof.
  intros Hh B L H e hl.
  assert (W : wf e) by (constructor; cbn; auto; try lia; intros y; apply Hh).
  split; [exact W|].
  apply accept_inv in H; [|exact L]. destruct H as (Hn & oo1 & oo2 & its & oo3 & u & C & V & It). fold e in C, V, It.
  apply content_deploy in C. destruct C as [_ C].
  destruct (validate_inv _ _ _ _ _ W V) as (hdr & dh & body & bh & S1 & S2 & H1 & S3 & S4 & H2). fold hl in S1, S2, S3.
  pose proof (slice_bounds _ _ _ _ S2) as Bd. change (mem e) with data in *.
  destruct (deploy_inv _ _ _ W C) as (o1 & t & A0 & PK & _ & _ & _ & _ & RP & At & Tr & RS & T2 & L2 & I1 & I2 & Dt & Ct).
  fold hl in RP. rewrite u16_small in RP by lia.
  assert (Ip : in16 (hl + 32)) by (unfold in16; lia).
  destruct (payment_inv _ _ _ _ W Ip RP) as (q2 & q3 & _ & _ & _ & _ & _ & T1 & L1 & _).
  unfold in16 in *. rewrite T1, T2, u32_small in S3 by lia.
  replace (o1 - (hl + 32) + (oo1 - o1)) with (oo1 - (hl + 32)) in S3 by lia.
  pose proof (slice_bounds _ _ _ _ S3) as Bd3.
  exists o1, oo1, t, oo2, its, oo3, hdr, dh, body, bh.
  repeat (split; [first [eassumption | lia]|]). exact H2.
Qed.

(** number of items *)
Lemma num_items (x : bool) v :
  UI_fixed_items (payment v) = 0 -> UI_runtime_items (payment v) = 1 -> counted (session v) ->
  (if x then 10 else 5) <= getNumItemsDeploy x v <= (if x then 19 else 14).
Proof.
  intros F R (f & r & C1 & C2 & C3 & C4 & C5). unfold getNumItemsDeploy. rewrite F, R, C1, C2.
  unfold u8, u32. destruct x; lia.
Qed.

Lemma payment_fixed e p i o1 : wf e -> in16 p -> read_payment e p = (Ret i, o1) ->
  UI_fixed_items i = 0 /\ UI_runtime_items i = 1 /\ dspecial i = SystemPayment /\ dgeneric i = false.
Proof.
  intros W I H. destruct (payment_inv _ _ _ _ W I H) as (? & ? & _ & _ & _ & _ & _ & _ & _ & ->). auto.
Qed.

(** the chain name *)
Lemma chain_inv e v o it o' :
  wf e -> getItemDeploy v 2 e o = (Ret it, o') ->
  let h := dheader v in
  lenChainName h <= 100 /\
  exists nm, slice (mem e) (4 + u16 (pubkeyLen h + 56 + depsLen h)) (lenChainName h) = Some nm.
Proof.
  intros W H h. unfold getItemDeploy in H.
  bx H x o1 X. bx H u o2 C. change (2 =? 0) with false in H. change (2 =? 1) with false in H. change (2 =? 2) with true in H.
  cbv iota in H. bx H u2 o3 Ix. bx H q o4 G. pinv. apply index_inv in Ix. destruct Ix as (y & -> & _ & ->).
  unfold DISPLAY_STRING in H. pinv. subst h. split; [lia|]. eexists; eassumption.
Qed.

Lemma depsLen_mod h : depsLen h = 4 + 32 * (lenDependencies h mod 2048).
Proof. unfold depsLen, u16, u32. lia. Qed.

Lemma accepted_bound pf x data v :
  (forall y, zlen (p_hash pf y) = 32 /\ bytes (p_hash pf y)) -> bytes data -> zlen data < 65535 ->
  tx_parse pf x (0 :: data) = Ret (TDeploy v) ->
  lenDependencies (dheader v) mod 2048 < 2042 ->
  exists alg key f24 bh deps chain dh body rest,
    let hdr := [alg] ++ key ++ f24 ++ bh ++ le 4 (lenDependencies (dheader v)) ++ deps ++ lv chain in
    data = hdr ++ dh ++ body ++ rest /\
    (alg = 1 /\ zlen key = 32 \/ alg = 2 /\ zlen key = 33) /\ zlen f24 = 24 /\ zlen bh = 32 /\ zlen dh = 32 /\
    zlen deps = 32 * (lenDependencies (dheader v) mod 2048) /\
    p_hash pf hdr = dh /\ p_hash pf body = bh /\
    zlen hdr = header_length_deploy (dheader v) /\
    snd (parse_content 0 (ctx_of pf x false 40 data (zlen data)) 0) = zlen (hdr ++ dh ++ body).
Proof.
  intros Hh B L H ND.
  destruct (accepted_deploy _ _ _ _ Hh B L H) as (W & o1 & o2 & t & o3 & its & o4 & hdr & dh & body & bh & RD & RP & At & Tr & RS & Dt & Ct
     & It & L1 & L2 & L3 & T1 & T2 & PK & A0 & S1 & S2 & H1 & S3 & S4 & H2).
  set (e := ctx_of pf x false 40 data (zlen data)) in *. set (h := dheader v) in *.
  destruct (deploy_inv _ _ _ W RD) as (q1 & t' & _ & _ & Nd & Nc & A1 & A2 & _). fold h in Nd, Nc, A1, A2.
  pose proof (header_len_range h) as HL.
  assert (Ip : in16 (header_length_deploy h + 32)) by (unfold in16; lia).
  destruct (payment_fixed _ _ _ _ W Ip RP) as (P1 & P2 & _).
  pose proof (num_items x v P1 P2 Ct) as NI.
  destruct (items_nth _ _ _ _ _ _ _ It) as [_ K].
  destruct (K 2%nat) as (it2 & oo1 & oo2 & _ & G2).
  { cbn [getNumItems]. destruct x; lia. }
  destruct (chain_inv _ _ _ _ _ W G2) as (LC & chain & SC). fold h in LC, SC.
  pose proof (depsLen_mod h) as DL.
  assert (PL : pubkeyLen h = 33 \/ pubkeyLen h = 34) by (unfold pubkeyLen; destruct (_ =? 2); lia).
  rewrite u16_small in A2, SC by lia.
  assert (HLe : header_length_deploy h = pubkeyLen h + 56 + depsLen h + 4 + lenChainName h).
  { unfold header_length_deploy. rewrite (u16_small (4 + _)) by lia. rewrite u16_small by lia. lia. }
  pose proof (slice_len _ _ _ _ SC) as ZC.
  assert (AC : at_ e (pubkeyLen h + 56 + depsLen h) (lv chain)).
  { apply at_lv. rewrite ZC. split; [exact A2|]. unfold at_. rewrite ZC.
    replace (pubkeyLen h + 56 + depsLen h + 4) with (4 + (pubkeyLen h + 56 + depsLen h)) by lia. exact SC. }
  pose proof (at_bound _ _ _ W AC) as BC. rewrite zlen_lv, (wf_len e W) in BC. change (mem e) with data in BC.
  destruct (slice_total data 1 (pubkeyLen h - 1)) as (key & SK); [lia|lia|lia|].
  destruct (slice_total data (pubkeyLen h) 24) as (f24 & SF); [lia|lia|lia|].
  destruct (slice_total data (pubkeyLen h + 60) (32 * (lenDependencies h mod 2048))) as (deps & SD); [lia|lia|lia|].
  pose proof (slice_len _ _ _ _ SK) as ZK. pose proof (slice_len _ _ _ _ SF) as ZF. pose proof (slice_len _ _ _ _ SD) as ZD.
  pose proof (slice_len _ _ _ _ S4) as ZB. pose proof (slice_len _ _ _ _ S2) as ZH. pose proof (slice_len _ _ _ _ S3) as ZBo.
  exists (pubkeytype h), key, f24, bh, deps, chain, dh, body.
  set (hd := [pubkeytype h] ++ key ++ f24 ++ bh ++ le 4 (lenDependencies h) ++ deps ++ lv chain).
  assert (ZHd : zlen hd = header_length_deploy h).
  { unfold hd. rewrite !zlen_app, zlen_lv, le_length. change (zlen [pubkeytype h]) with 1. lia. }
  assert (AH : at_ e 0 hd).
  { unfold hd. apply at_app. split; [exact A0|]. change (zlen [pubkeytype h]) with 1.
    apply at_app. split; [unfold at_; rewrite ZK; exact SK|]. rewrite ZK.
    apply at_app. replace (0 + 1 + (pubkeyLen h - 1)) with (pubkeyLen h) by lia.
    split; [unfold at_; rewrite ZF; exact SF|]. rewrite ZF.
    apply at_app. split; [unfold at_; rewrite ZB; exact S4|]. rewrite ZB.
    replace (pubkeyLen h + 24 + 32) with (pubkeyLen h + 56) by lia.
    apply at_app. split; [exact A1|]. rewrite le_length.
    replace (pubkeyLen h + 56 + Z.of_nat 4) with (pubkeyLen h + 60) by lia.
    apply at_app. split; [unfold at_; rewrite ZD; exact SD|]. rewrite ZD.
    replace (pubkeyLen h + 60 + 32 * (lenDependencies h mod 2048)) with (pubkeyLen h + 56 + depsLen h) by lia. exact AC. }
  assert (hdr = hd) as ->.
  { unfold at_ in AH. rewrite ZHd in AH. change (mem e) with data in AH. congruence. }
  assert (S5 : slice data 0 (header_length_deploy h + 32) = Some (hd ++ dh)) by (eapply slice_app; [exact S1|exact S2]).
  assert (S6 : slice data 0 (header_length_deploy h + 32 + (o2 - (header_length_deploy h + 32))) = Some ((hd ++ dh) ++ body))
    by (eapply slice_app; [exact S5|exact S3]).
  destruct (slice_0 _ _ _ S6) as (rest & E). exists rest. cbv zeta.
  split; [rewrite E, <- !app_assoc; reflexivity|].
  split; [unfold pubkeyLen in ZK, PL; fold h in PK; destruct PK as [PK|PK]; rewrite PK in *; cbn [Z.eqb Pos.eqb] in ZK; [left|right]; lia|].
  split; [exact ZF|]. split; [exact ZB|]. split; [exact ZH|]. split; [exact ZD|]. split; [exact H1|]. split; [exact H2|].
  split; [exact ZHd|].
  unfold parse_content. change (0 =? content_Deploy) with true. cbv iota. unfold bind. fold e. rewrite RD. cbn [snd ret].
  rewrite !zlen_app, ZHd, ZH, ZBo. lia.
Qed.

(** * The standard payment *)
Lemma get_type_inv d e o r o' :
  wf e -> in16 o -> get_type d e o = (Ret r, o') ->
  at_ e o [fst r] /\ (fst r <= 12 -> o' = o + 1).
Proof.
  intros W I H. unfold get_type in H. bx H t o1 R. bx H u o2 C. bx H it o3 A. apply ret_inv in H. destruct H as [-> ->].
  unfold check_runtime_type in C. apply check_inv in C. destruct C as [_ ->].
  apply readU8_inv in R; auto. destruct R as (V & A0 & L & ->). cbn [fst]. split; [exact A0|]. intros Ht.
  cbn [parse_additional_typebytes] in A. unfold TAG_UREF in A.
  replace ((t <=? 12) || (t =? TAG_PUBLIC_KEY) || (t =? TAG_ANY)) with true in A
    by (destruct (t <=? 12) eqn:E; [reflexivity|lia]).
  apply ret_inv in A. destruct A as [_ ->]. reflexivity.
Qed.

Lemma parse_item_inv e o r o' len :
  wf e -> in16 o -> parse_item e o = (Ret r, o') -> at_ e o (le 4 len) -> 0 <= len < 2 ^ 32 -> len <= blen e - (o + 4) ->
  o' = o + 4 + len.
Proof.
  intros W I H A V L. unfold parse_item in H. rewrite (bind_Ret _ _ _ _ _ _ (readU32_at len e o W A ltac:(lia))) in H.
  pinv. pose proof (wf_max e W). unfold in16 in I. rewrite u16_small by lia. reflexivity.
Qed.

Lemma loop1 {S R} (body : S -> P (flow S R)) s e o : loop 1 body s e o = iter_loop 1 body s e o.
Proof. apply loop_iter. Qed.

Lemma fee_item v e o it o' :
  UI_fixed_items (payment v) = 0 -> UI_runtime_items (payment v) = 1 -> dspecial (payment v) = SystemPayment ->
  getItemDeploy v (if expert e then 8 else 4) e o = (Ret it, o') ->
  exists o2, getItem_SystemPayment (payment v) 0 e (u16 (header_length_deploy (dheader v) + 32)) = (Ret it, o2).
Proof.
  intros F R Sp H. unfold getItemDeploy in H. rewrite step_ask in H. apply bind_inv in H. destruct H as (u & o1 & _ & H).
  rewrite F, R, Sp in H.
  destruct (expert e); cbn [Z.eqb Pos.eqb andb] in H; bx H u2 o2 So; apply set_off_inv in So; subst o2;
    exists o'; exact H.
Qed.

Lemma payment_shape v e p o1 it o' :
  wf e -> in16 p -> read_payment e p = (Ret (payment v), o1) ->
  getItem_SystemPayment (payment v) 0 e p = (Ret it, o') ->
  exists code nm val,
    at_ e p ([0] ++ lv code ++ le 4 1 ++ lv nm ++ lv val ++ [8]) /\
    o1 = p + zlen ([0] ++ lv code ++ le 4 1 ++ lv nm ++ lv val ++ [8]) /\
    cstr nm = str "amount" /\ ikey it = str "Fee" /\
    (exists o2 o3, display_runtimeArgMotes 8 (zlen val) e o2 = (Ret (ival it), o3) /\ at_ e o2 val).
Proof.
  intros W I RP H.
  destruct (payment_inv _ _ _ _ W I RP) as (o2 & o3 & A0 & PI & RC & (ity & SE) & PA & _ & _ & EP).
  unfold getItem_SystemPayment in H. rewrite EP in H. cbn [dgeneric UI_fixed_items UI_runtime_items negb] in H.
  pose proof (at_bound _ _ _ W A0) as B0. change (zlen [0]) with 1 in B0.
  rewrite step_advance in H by (unfold in16 in I; lia).
  bx H len q1 R1. bx H q q2 G. apply get_off_inv in G. destruct G as [-> ->].
  bx H bl q3 G. apply ask_inv in G. destruct G as [-> ->]. bx H u q4 C. apply check_inv in C. destruct C as [C ->].
  assert (I1 : in16 (p + 1)) by (unfold in16 in *; lia).
  pose proof R1 as R1'. apply readU32_inv in R1; auto. destruct R1 as (V1 & A1 & L1 & ->).
  apply Z.leb_le in C.
  pose proof (parse_item_inv _ _ _ _ _ W I1 PI A1 V1 C) as ->.
  destruct (item_split _ _ _ W I1 V1 A1 C) as (code & AC & ZC).
  pose proof (at_bound _ _ _ W AC) as BC. rewrite zlen_lv, ZC in BC.
  rewrite step_advance in H by lia.
  assert (I2 : in16 (p + 1 + 4 + len)) by (unfold in16 in *; lia).
  bx H st q5 G. apply get_off_inv in G. destruct G as [-> ->].
  rewrite (bind_Ret _ _ _ _ _ _ RC) in H.
  apply readU32_inv in RC; auto. destruct RC as (_ & A2 & L2 & ->).
  cbn [Z.sub Z.add Z.opp] in H. change (u8 0) with 0 in H.
  rewrite step_check in H by reflexivity. change (0 =? 0) with true in H. cbv iota in H.
  unfold show_motes in H. bx H r q6 GD. bx H d q7 D. apply ret_inv in H. destruct H as [-> ->].
  set (a := p + 1 + 4 + len + 4) in *. assert (Ia : in16 a) by (pose proof (wf_max e W); unfold a, in16 in *; lia).
  unfold getData in GD. bx GD f q8 LP. rewrite loop1 in LP. cbn [iter_loop] in LP.
  bx LP f1 q9 BD. unfold getData_body in BD. bx BD nm q10 CP.
  pose proof CP as CP'. apply copy_item_inv in CP; auto. destruct CP as (AN & LN & ->).
  pose proof (at_bound _ _ _ W AN) as BN.
  assert (IN : in16 (a + zlen (lv nm))) by (pose proof (zlen_nonneg (lv nm)); unfold in16 in *; lia).
  destruct (name_is nm (str "amount")) eqn:NI; [|pinv; discriminate].
  (* the same argument as seen by the type search *)
  unfold searchRuntimeArgs in SE. rewrite step_get_off in SE. bx SE g p1 LP2. rewrite loop1 in LP2. cbn [iter_loop] in LP2.
  bx LP2 g1 p2 SB. unfold search_body in SB. rewrite (bind_Ret _ _ _ _ _ _ CP') in SB. rewrite NI in SB.
  bx SB u1 p3 PI2. bx SB ty p4 GT. bx SB u2 p5 SO. apply ret_inv in SB. destruct SB as [-> ->].
  apply ret_inv in LP2. destruct LP2 as [-> ->]. apply ret_inv in SE. destruct SE as [ETy _]. subst ty.
  (* the value *)
  bx BD vl p6 RV. bx BD p7 p8 G. apply get_off_inv in G. destruct G as [-> ->].
  bx BD bl p9 G. apply ask_inv in G. destruct G as [-> ->]. bx BD u3 p10 CV. apply check_inv in CV. destruct CV as [CV ->].
  apply readU32_inv in RV; auto. destruct RV as (VV & AV & LV & ->). apply Z.leb_le in CV.
  pose proof (parse_item_inv _ _ _ _ _ W IN PI2 AV VV CV) as ->.
  destruct (item_split _ _ _ W IN VV AV CV) as (val & AVl & ZV).
  pose proof (at_bound _ _ _ W AVl) as BV. rewrite (zlen_lv val), ZV in BV.
  assert (IV : in16 (a + zlen (lv nm) + 4 + vl)) by (unfold in16 in *; lia).
  pose proof (get_type_inv _ _ _ _ _ W IV GT) as [AT OT]. cbn [fst] in AT, OT. specialize (OT ltac:(lia)).
  rewrite step_advance in BD by lia. bx BD t2 p11 GT2. rewrite GT in GT2. injection GT2 as <- <-.
  bx BD u4 p12 SO2. apply set_off_inv in SO2. apply ret_inv in BD. destruct BD as [-> ->].
  apply ret_inv in LP. destruct LP as [-> ->]. apply ret_inv in GD. destruct GD as [-> ->].
  (* skipping it *)
  unfold parseRuntimeArgs in PA. bx PA f2 p13 LP3. rewrite loop1 in LP3. cbn [iter_loop] in LP3.
  bx LP3 f3 p14 SK. unfold skip_arg in SK. bx SK u5 p15 SK1. apply ret_inv in SK. destruct SK as [-> ->].
  apply ret_inv in LP3. destruct LP3 as [-> ->]. apply ret_inv in PA. destruct PA as [_ ->].
  bx SK1 u6 p16 X1. bx SK1 u7 p17 X2. bx SK1 u8' p18 X3. apply ret_inv in SK1. destruct SK1 as [_ ->].
  rewrite (parse_item_at nm e a W AN) in X1. injection X1 as _ <-.
  pose proof (parse_item_inv _ _ _ _ _ W IN X2 AV VV CV) as ->.
  rewrite GT in X3. injection X3 as _ <-.
  exists code, nm, val. cbn [fst snd] in D.
  assert (ZA : a = p + 1 + zlen (lv code) + 4) by (rewrite zlen_lv, ZC; unfold a; lia).
  split.
  { apply at_app. split; [exact A0|]. change (zlen [0]) with 1.
    apply at_app. split; [exact AC|]. apply at_app. rewrite le_length.
    replace (p + 1 + zlen (lv code)) with (p + 1 + 4 + len) by (rewrite zlen_lv, ZC; lia).
    split; [exact A2|]. change (Z.of_nat 4) with 4. fold a. apply at_app. split; [exact AN|].
    apply at_app. split; [exact AVl|]. rewrite (zlen_lv val), ZV.
    replace (a + zlen (lv nm) + (4 + vl)) with (a + zlen (lv nm) + 4 + vl) by lia. exact AT. }
  split.
  { rewrite !zlen_app, le_length, !(zlen_lv val), ZV. change (zlen [0]) with 1. change (zlen [8]) with 1. lia. }
  split; [apply list_eqb_eq; exact NI|]. split; [reflexivity|].
  exists p12, q7. rewrite ZV. split; [exact D|].
  rewrite SO2, u16_small by lia. apply at_lv in AVl. apply AVl.
Qed.
