(** Consequences of [deploy_review] for the kinds of deploys users meet. *)
From Verif Require Import Base Zxlib Crypto Utils RuntimeArg Deploy DeployUI TxV1 TxV1UI Parser BaseFacts Spec SpecText SpecDeploy Exec ArgsFacts ReaderFacts TextFacts Shows DeployArgs SessionFacts DelegationFacts StoredFacts ModuleFacts ReviewFacts Demo.
Import S ST SD.

Lemma carries_want l name ok vw v lab : carries l name ok vw v -> want (only ok vw) lab name l = Some (ln lab v).
Proof.
  intros (a & F & O & V). unfold want. rewrite F. unfold only. rewrite O, V. reflexivity.
Qed.
Lemma carries_has l name ok vw v : carries l name ok vw v -> has name l = true.
Proof. intros (a & F & _). unfold has. rewrite F. reflexivity. Qed.
Lemma carries_typed l name ok vw v : carries l name ok vw v -> typed_if_present ok name l = true.
Proof. intros (a & F & O & _). unfold typed_if_present. rewrite F. exact O. Qed.

Lemma len_firstn {A} k (l : list A) : firstn (Z.to_nat (zlen l)) l = l /\ (zlen l <= Z.of_nat k -> firstn k l = l).
Proof. unfold zlen. rewrite Nat2Z.id. split; [apply firstn_all|]. intros; apply firstn_all2; lia. Qed.

(** Where the header fields are. *)
Definition part_bytes (h : header) (p : header_part) : list Z :=
  match p with
  | header_pubkey => h_alg h :: h_key h
  | header_timestamp => le 8 (h_time h)
  | header_ttl => le 8 (h_ttl h)
  | header_gasprice => le 8 (h_gas h)
  | header_bodyhash => h_bodyhash h
  | header_deps => le 4 (S.len (h_deps h))
  | header_chainname => lv (h_chain h)
  end.

Lemma header_located e h dh rest :
  wf e -> good_header h -> at_ e 0 (enc_header h ++ dh ++ rest) ->
  exists v o', read_header_counts (h_alg h) e 1 = (Ret v, o') /\
    lenDependencies v = S.len (h_deps h) /\ lenChainName v = S.len (h_chain h) /\
    header_length_deploy v = S.len (enc_header h) /\ at_ e (header_length_deploy v) dh /\
    forall p o, exists i, index_headerpart_deploy v p e o = (Ret tt, i) /\ at_ e i (part_bytes h p).
Proof.
  intros W G A. rewrite !at_app in A. destruct A as (A1 & A2 & _). rewrite Z.add_0_l in *.
  pose proof (at_bound _ _ _ W A1) as B.
  destruct (header_at_ok e h W G A1) as [HL HPK HDL HK HT1 HT2 HG HB HD HC HALL HEND].
  rewrite zlen_lv in HEND. pose proof (zlen_nonneg (h_deps h)). pose proof (zlen_nonneg (h_chain h)). pose proof (zlen_nonneg (h_key h)).
  exists (hdr h), (pubkeyLen (hdr h) + 56 + depsLen (hdr h) + 4). split.
  { unfold read_header_counts. rewrite (index_at _ _ _ _ _ _ _ W HD) by reflexivity.
    step (readU32_at _ e _ W HD ltac:(lia)). rewrite (index_at _ _ _ _ _ _ _ W HC) by reflexivity.
    apply at_lv in HC. destruct HC as [HC _]. step (readU32_at _ e _ W HC ltac:(lia)). reflexivity. }
  split; [reflexivity|]. split; [reflexivity|]. split; [exact HL|]. split; [rewrite HL; exact A2|].
  assert (X : forall p i bs o, at_ e i bs ->
     i = match p with
      | header_pubkey => 0 | header_timestamp => pubkeyLen (hdr h) | header_ttl => pubkeyLen (hdr h) + 8
      | header_gasprice => pubkeyLen (hdr h) + 8 + 8 | header_bodyhash => pubkeyLen (hdr h) + 8 + 8 + 8
      | header_deps => pubkeyLen (hdr h) + 56 | header_chainname => pubkeyLen (hdr h) + 56 + depsLen (hdr h)
      end -> index_headerpart_deploy (hdr h) p e o = (Ret tt, i)).
  { intros p i bs o Ai E. pose proof (index_at (hdr h) p i bs e o ret W Ai E) as Y.
    unfold bind in Y. destruct (index_headerpart_deploy (hdr h) p e o) as [[[]|x|u] z]; unfold ret in Y; congruence. }
  intros p o. destruct p; eexists; (split; [eapply X; [|reflexivity]|]); cbn [part_bytes]; eassumption.
Qed.

(** Native transfers. *)
Definition is_u512_type (t : cltype) : bool := match t with Prim 8 => true | _ => false end.

Lemma transfer3 pf x d l target amount id :
  hash32 (p_hash pf) -> good_deploy (p_hash pf) d -> expert_ok x (p_time pf) (d_header d) ->
  d_session d = SD.Transfer l -> S.len l = 3 ->
  carries l "target" is_account_type arg_view target ->
  carries l "amount" is_u512_type amount_view amount ->
  carries l "id" is_id_type arg_view id ->
  reviews pf x (enc_tx d) (around x d ([ln "Target" target; ln "Amount" amount] ++ (if x then [ln "ID" id] else []))).
Proof.
  intros Hh G EX ES L CT CA CI. apply deploy_review; auto. unfold review. rewrite ES. cbn [session_review].
  unfold transfer_review. rewrite L. change (3 =? 3) with true. cbv iota.
  unfold account_arg. rewrite (carries_want _ _ _ _ _ "Target" CT).
  change (fun t => match t with Prim 8 => true | _ => false end) with is_u512_type.
  rewrite (carries_want _ _ _ _ _ "Amount" CA), (carries_want _ _ _ _ _ "ID" CI).
  destruct x; reflexivity.
Qed.

Lemma transfer4 pf x d l source target amount id :
  hash32 (p_hash pf) -> good_deploy (p_hash pf) d -> expert_ok x (p_time pf) (d_header d) ->
  d_session d = SD.Transfer l -> S.len l = 4 ->
  carries l "source" is_account_type arg_view source ->
  carries l "target" is_account_type arg_view target ->
  carries l "amount" is_u512_type amount_view amount ->
  carries l "id" is_id_type arg_view id ->
  reviews pf x (enc_tx d)
    (around x d ((if x then [ln "From" source] else []) ++ [ln "Target" target; ln "Amount" amount]
                 ++ (if x then [ln "ID" id] else []))).
Proof.
  intros Hh G EX ES L CS CT CA CI. apply deploy_review; auto. unfold review. rewrite ES. cbn [session_review].
  unfold transfer_review. rewrite L. change (4 =? 3) with false. change (4 =? 4) with true. cbv iota.
  unfold account_arg. rewrite (carries_want _ _ _ _ _ "Target" CT), (carries_want _ _ _ _ _ "From" CS).
  change (fun t => match t with Prim 8 => true | _ => false end) with is_u512_type.
  rewrite (carries_want _ _ _ _ _ "Amount" CA), (carries_want _ _ _ _ _ "ID" CI).
  destruct x; reflexivity.
Qed.

(** Delegations through a stored contract. *)
Definition delegation_lines (op : operation) (delegator validator new_validator amount : view) : list line :=
  match op with
  | ORedelegate => [ln "Delegator" delegator; ln "Old" validator; ln "New" new_validator; ln "Amount" amount]
  | _ => [ln "Delegator" delegator; ln "Validator" validator; ln "Amount" amount]
  end.

Lemma delegation_review_carries op l dl v nv am :
  carries l "delegator" is_key_type arg_view dl -> carries l "validator" is_key_type arg_view v ->
  (op = ORedelegate -> carries l "new_validator" is_key_type arg_view nv) ->
  carries l "amount" is_amount_type amount_view am ->
  delegation_review op l = Some (delegation_lines op dl v nv am).
Proof.
  intros CD CV CN CA. unfold delegation_review, key_arg.
  rewrite (carries_want _ _ _ _ _ "Delegator" CD), (carries_want _ _ _ _ _ "Amount" CA).
  destruct op.
  - rewrite (carries_want _ _ _ _ _ "Validator" CV). reflexivity.
  - rewrite (carries_want _ _ _ _ _ "Validator" CV). reflexivity.
  - rewrite (carries_want _ _ _ _ _ "Old" CV), (carries_want _ _ _ _ _ "New" (CN eq_refl)). reflexivity.
Qed.

Lemma stored_delegation pf x d t ep l op dl v nv am :
  hash32 (p_hash pf) -> good_deploy (p_hash pf) d -> expert_ok x (p_time pf) (d_header d) ->
  d_session d = Stored t ep l -> operation_of ep = Some op -> S.len l = op_args op ->
  carries l "delegator" is_key_type arg_view dl -> carries l "validator" is_key_type arg_view v ->
  (op = ORedelegate -> carries l "new_validator" is_key_type arg_view nv) ->
  carries l "amount" is_amount_type amount_view am ->
  type_text (d_session d) = op_text op /\
  reviews pf x (enc_tx d) (around x d ((if x then target_review true t else []) ++ delegation_lines op dl v nv am)).
Proof.
  intros Hh G EX ES EO L CD CV CN CA.
  assert (HD : has_delegation_args l = true).
  { unfold has_delegation_args. rewrite (carries_has _ _ _ _ _ CD), (carries_has _ _ _ _ _ CV), (carries_has _ _ _ _ _ CA). reflexivity. }
  assert (SO : stored_op ep l = Some op) by (unfold stored_op; rewrite HD; exact EO).
  split; [rewrite ES; cbn [type_text]; rewrite SO; reflexivity|].
  apply deploy_review; auto. unfold review. rewrite ES. cbn [session_review].
  assert (PT : plain_types l = true).
  { unfold plain_types. rewrite (carries_typed _ _ _ _ _ CA), (carries_typed _ _ _ _ _ CD), (carries_typed _ _ _ _ _ CV). reflexivity. }
  rewrite PT. cbn [negb]. rewrite SO, L, Z.eqb_refl.
  rewrite (delegation_review_carries op l dl v nv am CD CV CN CA). reflexivity.
Qed.

(** Delegations through module bytes: an "auction" argument names the entry
    point; the operation's arguments come first. *)
Lemma module_delegation pf x d w l op dl v nv am :
  hash32 (p_hash pf) -> good_deploy (p_hash pf) d -> expert_ok x (p_time pf) (d_header d) ->
  d_session d = Module w l -> auction_op l = Some op -> plain_types l = true ->
  let l' := firstn (Z.to_nat (op_args op)) l in
  carries l' "delegator" is_key_type arg_view dl -> carries l' "validator" is_key_type arg_view v ->
  (op = ORedelegate -> carries l' "new_validator" is_key_type arg_view nv) ->
  carries l' "amount" is_amount_type amount_view am ->
  type_text (d_session d) = op_text op /\
  reviews pf x (enc_tx d)
    (around x d ((if x then code_review (p_hash pf) w else []) ++ delegation_lines op dl v nv am)).
Proof.
  intros Hh G EX ES EO PT l' CD CV CN CA.
  split; [rewrite ES; cbn [type_text]; rewrite EO; reflexivity|].
  apply deploy_review; auto. unfold review. rewrite ES. cbn [session_review].
  rewrite PT. cbn [negb].
  assert (HA : has "auction" l = true).
  { destruct (auction_inv _ _ EO) as (a & p & nm & Lk & _). unfold has, find_arg. rewrite Lk. reflexivity. }
  rewrite HA, EO. fold l'. rewrite (delegation_review_carries op l' dl v nv am CD CV CN CA). reflexivity.
Qed.

(** Argument hashes. *)
Definition hash_covers (d : SD.deploy) (l : line) : Prop :=
  forall lab bs, snd l = ArgsHash lab bs -> bs = enc_args (args_of (d_session d)).

Lemma want_no_hash ok vw lab name l ln0 :
  (forall ty val v, vw ty val = Some v -> forall a b, v <> ArgsHash a b) ->
  want (only ok vw) lab name l = Some ln0 -> forall a b, snd ln0 <> ArgsHash a b.
Proof.
  intros N X. apply want_inv in X. destruct X as (p & a & v & _ & V & ->). apply only_inv in V. destruct V as [_ V].
  intros x y. cbn [snd ln]. eapply N; eauto.
Qed.
Lemma arg_view_no_hash ty val v : arg_view ty val = Some v -> forall a b, v <> ArgsHash a b.
Proof.
  assert (NB : forall n w v, num_bytes n w = Some v -> forall a b, v <> ArgsHash a b).
  { intros n w u X. apply num_bytes_inv in X. destruct X as [_ ->]. discriminate. }
  assert (HB : forall w v, hex_bytes w = Some v -> forall a b, v <> ArgsHash a b).
  { intros w u X. apply hex_bytes_inv in X. destruct X as [_ ->]. discriminate. }
  intros V a b. destruct ty as [g|t| |n| | | | | ]; try discriminate V.
  - apply arg_view_prim in V.
    destruct V as [[_ V]|[[_ V]|[[_ V]|[[_ (n & _ & ->)]|[[_ (t & bs & _ & V)]|[[_ V]|[_ (t & key & _ & -> & _)]]]]]]]; eauto; discriminate.
  - cbn [arg_view] in V. destruct val as [|c val]; [discriminate V|].
    destruct c as [|p|p]; [|destruct p; try discriminate V|discriminate V].
    + destruct val; [|discriminate V]. inversion V. discriminate.
    + destruct t as [g| | | | | | | |]; try discriminate V. destruct g as [|p|p]; try discriminate V.
      repeat (destruct p as [p|p|]; try discriminate V); eauto.
  - cbn [arg_view] in V. destruct (_ =? n); [eauto | discriminate V].
Qed.
Lemma amount_view_no_hash ty val v : amount_view ty val = Some v -> forall a b, v <> ArgsHash a b.
Proof. intros V a b. apply amount_view_cases in V. destruct V as [(_ & _ & ->)|(_ & n & _ & ->)]; discriminate. Qed.

Lemma wants_no_hash (ws : list (option line)) r :
  all ws = Some r -> Forall (fun w => forall l, w = Some l -> forall a b, snd l <> ArgsHash a b) ws ->
  Forall (fun l => forall a b, snd l <> ArgsHash a b) r.
Proof.
  revert r. induction ws as [|w ws IH]; intros r A F; [apply all_nil in A; subst; constructor|].
  apply all_cons in A. destruct A as (a & s & -> & A & ->). inversion F; subst. constructor; auto.
Qed.
Ltac nh := repeat (apply Forall_cons; [intros ? X; first [eapply want_no_hash; [apply arg_view_no_hash | exact X] | eapply want_no_hash; [apply amount_view_no_hash | exact X]]|]); apply Forall_nil.

Lemma no_hash_covers d r : Forall (fun l : line => forall a b, snd l <> ArgsHash a b) r -> Forall (hash_covers d) r.
Proof. apply Forall_impl. intros l N lab bs E. exfalso. eapply N; eauto. Qed.

Lemma transfer_no_hash x l r : transfer_review x l = Some r -> Forall (fun l => forall a b, snd l <> ArgsHash a b) r.
Proof.
  unfold transfer_review. intros R.
  assert (FT : forall n (q : list line), Forall (fun l => forall a b, snd l <> ArgsHash a b) q -> Forall (fun l => forall a b, snd l <> ArgsHash a b) (firstn n q)).
  { intros n q F. rewrite <- (firstn_skipn n q) in F. apply Forall_app in F. tauto. }
  destruct (S.len l =? 3); [|destruct (S.len l =? 4); [|discriminate]];
    (destruct (all _) as [q|] eqn:E in R; [|discriminate]; apply wants_no_hash in E; [|unfold account_arg; nh]).
  - destruct x; some_inj R; [exact E | apply FT; exact E].
  - destruct x; some_inj R; [exact E | apply FT]. destruct q; [constructor | inversion E; auto].
Qed.
Lemma delegation_no_hash o l r : delegation_review o l = Some r -> Forall (fun l => forall a b, snd l <> ArgsHash a b) r.
Proof.
  unfold delegation_review, key_arg. intros R. destruct o; eapply wants_no_hash; try exact R; nh.
Qed.
Lemma generic_hash l r : generic_args_review l = Some r ->
  In (ln "Args hash" (ArgsHash (text "execution") (enc_args l))) r /\
  Forall (fun q => forall lab bs, snd q = ArgsHash lab bs -> bs = enc_args l) r.
Proof.
  unfold generic_args_review. intros R. destruct (has "amount" l).
  - all_inv R. some_inj V0. split; [right; left; reflexivity|]. constructor; [|constructor; [|constructor]].
    + intros lab bs E. exfalso. eapply want_no_hash; [apply amount_view_no_hash | eassumption | exact E].
    + intros lab bs E. cbn [snd ln] in E. congruence.
  - some_inj R. split; [left; reflexivity|]. constructor; [|constructor]. intros lab bs E. cbn [snd ln] in E. congruence.
Qed.

(** Sessions shown with an argument hash: calls that are not a recognised
    operation. *)
Definition generic_call (s : session) : Prop :=
  match s with
  | Module _ l => auction_op l = None
  | Stored _ ep l => stored_op ep l = None
  | SD.Transfer _ => False
  end.

Lemma session_hashes H x d r :
  session_review H x (d_session d) = Some r ->
  (generic_call (d_session d) -> In (ln "Args hash" (ArgsHash (text "execution") (enc_args (args_of (d_session d))))) r) /\
  Forall (hash_covers d) r.
Proof.
  unfold hash_covers. destruct (d_session d) as [w l|t ep l|l] eqn:ES; cbn [args_of generic_call]; intros R.
  - apply module_review_inv in R. destruct R as (rl & [_ MF] & ->).
    assert (FC : forall q : list line, (q = code_review H w \/ q = []) -> Forall (fun l0 => forall lab bs, snd l0 = ArgsHash lab bs -> bs = enc_args l) q).
    { intros q [-> | ->]; repeat constructor; discriminate. }
    destruct (auction_op l) as [o|].
    + split; [discriminate|]. apply Forall_app. split; [apply FC; destruct x; auto|].
      apply delegation_no_hash in MF. revert MF. apply Forall_impl. intros q N lab bs E. exfalso; eapply N; eauto.
    + destruct MF as (_ & _ & MF). apply generic_hash in MF. destruct MF as [MI MF]. split; [intros _; apply in_or_app; auto|].
      apply Forall_app; split; auto.
  - apply stored_review_inv in R. destruct R as (rl & [_ SF] & ->).
    assert (FC : forall b, Forall (fun l0 : line => forall lab bs, snd l0 = ArgsHash lab bs -> bs = enc_args l) (target_review b t)).
    { intros b. destruct t; cbn [target_review]; destruct b; repeat constructor; discriminate. }
    destruct (stored_op ep l) as [o|].
    + split; [discriminate|]. apply Forall_app. split; [destruct x; auto|].
      destruct SF as [_ SF]. apply delegation_no_hash in SF. revert SF. apply Forall_impl. intros q N lab bs E. exfalso; eapply N; eauto.
    + destruct SF as [_ SF]. apply generic_hash in SF. destruct SF as [MI MF]. split; [intros _; apply in_or_app; auto|].
      apply Forall_app; split; auto. apply Forall_app; split; auto. destruct x; repeat constructor; discriminate.
  - split; [tauto|]. cbn [session_review] in R. apply transfer_no_hash in R. revert R. apply Forall_impl. intros q N lab bs E. exfalso; eapply N; eauto.
Qed.

Lemma deploy_hashes pf x d lines :
  hash32 (p_hash pf) -> good_deploy (p_hash pf) d -> expert_ok x (p_time pf) (d_header d) ->
  review (p_hash pf) x d = Some lines ->
  reviews pf x (enc_tx d) lines /\
  (forall lab label bs, In (lab, ArgsHash label bs) lines -> bs = enc_args (args_of (d_session d))) /\
  (generic_call (d_session d) ->
     In (ln "Args hash" (ArgsHash (text "execution") (enc_args (args_of (d_session d))))) lines).
Proof.
  intros Hh G EX R. split; [apply deploy_review; auto|].
  unfold review in R. destruct (session_review (p_hash pf) x (d_session d)) as [s|] eqn:ES; [|discriminate].
  some_inj R. destruct (session_hashes _ _ _ _ ES) as [I F]. unfold around. split.
  - intros lab label bs HI. rewrite Forall_forall in F.
    rewrite !in_app_iff in HI. destruct HI as [HI|[HI|[HI|[HI|HI]]]].
    + cbn in HI. intuition discriminate.
    + destruct x; cbn in HI; intuition discriminate.
    + cbn in HI. intuition discriminate.
    + apply (F _ HI label bs). reflexivity.
    + destruct x; cbn in HI; intuition discriminate.
  - intros GC. specialize (I GC). rewrite !in_app_iff. auto.
Qed.

(** * Every argument is shown or hashed *)
Definition shown_in (lines : list line) (a : arg) : Prop :=
  exists lab v, In (lab, v) lines /\
    (arg_view (a_ty a) (a_val a) = Some v \/ amount_view (a_ty a) (a_val a) = Some v).

Lemma find_arg_in n l a : find_arg n l = Some a -> In a l /\ a_name a = n.
Proof.
  unfold find_arg. intros F. destruct (lookup n l) as [[p b]|] eqn:E; [|discriminate]. injection F as ->.
  revert p E. induction l as [|c l IH]; intros p E; cbn [lookup] in E; [discriminate|].
  destruct (list_eq_dec Z.eq_dec (a_name c) n) as [N|N]; [injection E as <- <-; split; [left|]; auto|].
  destruct (lookup n l) as [[q b]|]; [|discriminate]. injection E as _ ->. destruct (IH q eq_refl). split; [right|]; auto.
Qed.

Lemma covers_all (l : list arg) (r : list line) (fs : list arg) :
  NoDup (map a_name fs) -> Forall (fun a => In a l /\ shown_in r a) fs -> zlen l = zlen fs ->
  Forall (shown_in r) l.
Proof.
  intros ND F L. assert (ND' : NoDup fs).
  { clear -ND. induction fs; [constructor|]. cbn in ND. inversion ND; subst. constructor; auto.
    intros X. apply H1. apply in_map. auto. }
  assert (I : incl l fs).
  { apply NoDup_length_incl; [exact ND'|unfold zlen in L; lia|]. intros a Ha. rewrite Forall_forall in F. apply F; auto. }
  apply Forall_forall. intros a Ha. rewrite Forall_forall in F. apply F. apply I. exact Ha.
Qed.

Lemma want_shown ok vw lab name l q r :
  (vw = arg_view \/ vw = amount_view) ->
  want (only ok vw) lab name l = Some q -> In q r -> exists a, a_name a = text name /\ In a l /\ shown_in r a.
Proof.
  intros V W I. unfold want in W. destruct (find_arg (text name) l) as [a|] eqn:F; [|discriminate].
  destruct (only ok vw (a_ty a) (a_val a)) as [v|] eqn:O; [|discriminate]. injection W as <-.
  apply only_inv in O. destruct O as [_ O]. apply find_arg_in in F. destruct F as [F1 F2].
  exists a. split; [exact F2|]. split; [exact F1|]. exists (text lab), v. split; [exact I|].
  destruct V; subst vw; auto.
Qed.

Lemma shown_app_r r1 r a : shown_in r a -> shown_in (r1 ++ r) a.
Proof. intros (lab & v & I & X). exists lab, v. split; [apply in_or_app; auto | exact X]. Qed.
Lemma shown_app_l r1 r a : shown_in r a -> shown_in (r ++ r1) a.
Proof. intros (lab & v & I & X). exists lab, v. split; [apply in_or_app; auto | exact X]. Qed.

Ltac nodup_names := cbn [map]; repeat match goal with E : a_name _ = _ |- _ => rewrite E; clear E end;
  repeat (constructor; [cbn; intuition discriminate|]); constructor.

Lemma transfer_shows_all l r : transfer_review true l = Some r -> Forall (shown_in r) l.
Proof.
  unfold transfer_review, account_arg. intros R. destruct (S.len l =? 3) eqn:E3; [|destruct (S.len l =? 4) eqn:E4; [|discriminate]].
  - destruct (all _) as [q|] eqn:A in R; [|discriminate]. some_inj R. all_inv A.
    edestruct (want_shown _ _ _ _ _ _ [ln0; ln1; ln2] (or_introl eq_refl) V) as (a1 & N1 & I1 & S1); [cbn; tauto|].
    edestruct (want_shown _ _ _ _ _ _ [ln0; ln1; ln2] (or_intror eq_refl) V0) as (a2 & N2 & I2 & S2); [cbn; tauto|].
    edestruct (want_shown _ _ _ _ _ _ [ln0; ln1; ln2] (or_introl eq_refl) V1) as (a3 & N3 & I3 & S3); [cbn; tauto|].
    apply (covers_all l _ [a1; a2; a3]); [nodup_names | repeat constructor; auto | apply Z.eqb_eq in E3; exact E3].
  - destruct (all _) as [q|] eqn:A in R; [|discriminate]. some_inj R. all_inv A.
    edestruct (want_shown _ _ _ _ _ _ [ln0; ln1; ln2; ln3] (or_introl eq_refl) V) as (a1 & N1 & I1 & S1); [cbn; tauto|].
    edestruct (want_shown _ _ _ _ _ _ [ln0; ln1; ln2; ln3] (or_introl eq_refl) V0) as (a2 & N2 & I2 & S2); [cbn; tauto|].
    edestruct (want_shown _ _ _ _ _ _ [ln0; ln1; ln2; ln3] (or_intror eq_refl) V1) as (a3 & N3 & I3 & S3); [cbn; tauto|].
    edestruct (want_shown _ _ _ _ _ _ [ln0; ln1; ln2; ln3] (or_introl eq_refl) V2) as (a4 & N4 & I4 & S4); [cbn; tauto|].
    apply (covers_all l _ [a1; a2; a3; a4]); [nodup_names | repeat constructor; auto | apply Z.eqb_eq in E4; exact E4].
Qed.

Lemma delegation_shows_all o l r : S.len l = op_args o -> delegation_review o l = Some r -> Forall (shown_in r) l.
Proof.
  unfold delegation_review, key_arg. intros L R. destruct o; cbn [op_args] in L; all_inv R.
  - edestruct (want_shown _ _ _ _ _ _ [ln0; ln1; ln2] (or_introl eq_refl) V) as (a1 & N1 & I1 & S1); [cbn; tauto|].
    edestruct (want_shown _ _ _ _ _ _ [ln0; ln1; ln2] (or_introl eq_refl) V0) as (a2 & N2 & I2 & S2); [cbn; tauto|].
    edestruct (want_shown _ _ _ _ _ _ [ln0; ln1; ln2] (or_intror eq_refl) V1) as (a3 & N3 & I3 & S3); [cbn; tauto|].
    apply (covers_all l _ [a1; a2; a3]); [nodup_names | repeat constructor; auto | exact L].
  - edestruct (want_shown _ _ _ _ _ _ [ln0; ln1; ln2] (or_introl eq_refl) V) as (a1 & N1 & I1 & S1); [cbn; tauto|].
    edestruct (want_shown _ _ _ _ _ _ [ln0; ln1; ln2] (or_introl eq_refl) V0) as (a2 & N2 & I2 & S2); [cbn; tauto|].
    edestruct (want_shown _ _ _ _ _ _ [ln0; ln1; ln2] (or_intror eq_refl) V1) as (a3 & N3 & I3 & S3); [cbn; tauto|].
    apply (covers_all l _ [a1; a2; a3]); [nodup_names | repeat constructor; auto | exact L].
  - edestruct (want_shown _ _ _ _ _ _ [ln0; ln1; ln2; ln3] (or_introl eq_refl) V) as (a1 & N1 & I1 & S1); [cbn; tauto|].
    edestruct (want_shown _ _ _ _ _ _ [ln0; ln1; ln2; ln3] (or_introl eq_refl) V0) as (a2 & N2 & I2 & S2); [cbn; tauto|].
    edestruct (want_shown _ _ _ _ _ _ [ln0; ln1; ln2; ln3] (or_introl eq_refl) V1) as (a3 & N3 & I3 & S3); [cbn; tauto|].
    edestruct (want_shown _ _ _ _ _ _ [ln0; ln1; ln2; ln3] (or_intror eq_refl) V2) as (a4 & N4 & I4 & S4); [cbn; tauto|].
    apply (covers_all l _ [a1; a2; a3; a4]); [nodup_names | repeat constructor; auto | exact L].
Qed.

(** A session recognised as a transfer or delegation, other than by module
    bytes. *)
Definition recognised (s : session) : Prop :=
  match s with Module _ _ => False | Stored _ ep l => stored_op ep l <> None | SD.Transfer _ => True end.

Lemma recognised_shows_all pf d lines :
  hash32 (p_hash pf) -> good_deploy (p_hash pf) d -> expert_ok true (p_time pf) (d_header d) ->
  review (p_hash pf) true d = Some lines -> recognised (d_session d) ->
  reviews pf true (enc_tx d) lines /\ Forall (shown_in lines) (args_of (d_session d)).
Proof.
  intros Hh G EX R RC. split; [apply deploy_review; auto|].
  unfold review in R. destruct (session_review (p_hash pf) true (d_session d)) as [s|] eqn:ES; [|discriminate].
  some_inj R. assert (X : Forall (shown_in s) (args_of (d_session d))).
  { destruct (d_session d) as [w l|t ep l|l]; cbn [recognised args_of] in *; [tauto| |].
    - apply stored_review_inv in ES. destruct ES as (rl & [_ SF] & ->). destruct (stored_op ep l) as [o|]; [|congruence].
      destruct SF as [L SF]. apply delegation_shows_all in SF; [|exact L]. revert SF. apply Forall_impl.
      intros a. apply shown_app_r.
    - apply transfer_shows_all. exact ES. }
  revert X. apply Forall_impl. intros a S0. unfold around. do 3 apply shown_app_r. apply shown_app_l. exact S0.
Qed.

(** * Same text, same value *)
Definition same_kind (a b : view) : Prop :=
  match a, b with
  | Hex x, Hex y => bytes x /\ bytes y
  | KeyText s x, KeyText t y => (0 <= s < 160 /\ 0 <= t < 160) /\ bytes x /\ bytes y
  | Text _, Text _ | Words _, Words _ | Motes _, Motes _ | Number _, Number _ | Ttl _, Ttl _ => True
  | _, _ => False
  end.
Lemma renders_inj H tf a b d : same_kind a b -> renders H tf a d -> renders H tf b d -> a = b.
Proof.
  destruct a, b; cbn [same_kind renders]; try tauto; intros K A B.
  - f_equal. apply (cep57_inj (H bs) (H bs0)); try tauto. congruence.
  - rewrite A in B. assert (B' : key_text H tag0 key = key_text H tag1 key0) by congruence. clear A B.
    unfold key_text in B'. cbn [app] in B'. pose proof (f_equal (fun l => nth 0 l 0) B') as B1.
    pose proof (f_equal (fun l => nth 1 l 0) B') as B2. pose proof (f_equal (fun l => skipn 2 l) B') as B3.
    cbn [nth skipn] in B1, B2, B3. assert (tag0 = tag1) by lia. f_equal; auto. apply (cep57_inj (H key) (H key0)); tauto.
  - congruence.
  - congruence.
  - destruct A as (s & A & ->), B as (t & B & E). injection E as <-. f_equal. eapply motes_text_inj; eauto.
  - destruct A as (s & A & ->), B as (t & B & E). injection E as <-. f_equal. eapply decimal_inj; eauto.
  - destruct A as (s & A & ->), B as (t & B & E). injection E as <-. f_equal. eapply ttl_text_inj; eauto.
Qed.
