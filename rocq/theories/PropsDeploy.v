(** Properties C04, C05, C08 to C11, C43 to C45: what the review of a deploy shows. *)
From Verif Require Import Base Zxlib Crypto Utils RuntimeArg Deploy DeployUI TxV1 TxV1UI Parser BaseFacts Spec SpecText SpecDeploy Exec ArgsFacts ReaderFacts TextFacts Shows ReviewFacts Demo DeployCases WitDeploy.
Import S ST SD.

(** ** C04  A name is matched exactly *)
(** Proved for argument lists whose names have no NUL byte. *)
Theorem C04_exact_names_partial :
  forall name l e o r o', wf e -> Forall arg_ok l -> at_ e o (enc_arg_list l) ->
  getData name (zlen l) e o = (Ret r, o') ->
  exists a, In a l /\ a_name a = name /\ r = (zlen (a_val a), tag (a_ty a)) /\ at_ e o' (a_val a).
Proof. exact lookup_exact. Qed.
Print Assumptions C04_exact_names_partial.

(** In general false: names are compared as C strings.  A delegation is shown
    with a validator that is not the one in its "validator" argument. *)
Theorem C04_exact_names_refuted :
  exists pf l d t i it a, hash32 (p_hash pf) /\
    (exists ct, d_session d = Stored ct (text "delegate") l) /\ zlen (enc_tx d) < 65536 /\ bytes (enc_tx d) /\
    Forall (fun a => supported (a_ty a) = true) l /\
    tx_parse pf true (enc_tx d) = Ret t /\ tx_getItem pf true 40 (enc_tx d) t i = Ret it /\
    find_arg (text "validator") l = Some a /\ a_ty a = Prim 22 /\
    ikey it = text "Validator" /\
    forall v, arg_view (a_ty a) (a_val a) = Some v -> ~ renders (p_hash pf) (p_time pf) v (ival it).
Proof. exact fake_name_refuted. Qed.
Print Assumptions C04_exact_names_refuted.

Example C04_case :
  let e := demo_env (enc_args [arg_id; arg_target; arg_amount]) in
  wf e /\ at_ e 4 (enc_arg_list [arg_id; arg_target; arg_amount]) /\
  fst (getData (text "amount") 3 e 4) = Ret (5, 8).
Proof. cbv zeta. split; [apply wf_demo; reflexivity|]. split; reflexivity. Qed.

(** ** C05  Deploy header fields are located exactly *)
(** [h] is any well-formed header, followed by the deploy hash [dh] and
    anything else; [part_bytes h p] are the bytes that encode part [p]. *)
Theorem C05_header_located :
  forall e h dh rest, wf e -> good_header h -> at_ e 0 (enc_header h ++ dh ++ rest) ->
  exists v o', read_header_counts (h_alg h) e 1 = (Ret v, o') /\
    lenDependencies v = S.len (h_deps h) /\ lenChainName v = S.len (h_chain h) /\
    header_length_deploy v = S.len (enc_header h) /\ at_ e (header_length_deploy v) dh /\
    forall p o, exists i, index_headerpart_deploy v p e o = (Ret tt, i) /\ at_ e i (part_bytes h p).
Proof. exact header_located. Qed.
Print Assumptions C05_header_located.

Definition demo_header := Header 2 (repeat 17 33) 5 6 7 (repeat 1 32) [repeat 2 32; repeat 3 32] (text "casper-test").
Lemma demo_header_good : good_header demo_header.
Proof.
  constructor; cbn; auto; try lia.
  split; [vm_compute; discriminate|]. intros X. cbn in X. intuition discriminate.
Qed.
Example C05_case :
  let e := demo_env (enc_header demo_header ++ repeat 4 32 ++ [0]) in
  wf e /\ good_header demo_header /\ at_ e 0 (enc_header demo_header ++ repeat 4 32 ++ [0]).
Proof. cbv zeta. split; [apply wf_demo; reflexivity|]. split; [exact demo_header_good | reflexivity]. Qed.

(** ** C08  Native-transfer deploys show exactly what they do *)
(** [reviews pf x data lines]: the transaction is accepted, has as many items
    as [lines], and item [i] shows line [i].  [around] are the lines common to
    all deploys.  The arguments may come in any order. *)
Theorem C08_transfer_review :
  forall pf x d l target amount id,
  hash32 (p_hash pf) -> good_deploy (p_hash pf) d -> expert_ok x (p_time pf) (d_header d) ->
  d_session d = SD.Transfer l -> S.len l = 3 ->
  carries l "target" is_account_type arg_view target ->
  carries l "amount" is_u512_type amount_view amount ->
  carries l "id" is_id_type arg_view id ->
  reviews pf x (enc_tx d) (around x d ([ln "Target" target; ln "Amount" amount] ++ (if x then [ln "ID" id] else []))).
Proof. exact transfer3. Qed.
Print Assumptions C08_transfer_review.

Theorem C08_transfer_from_source_review :
  forall pf x d l source target amount id,
  hash32 (p_hash pf) -> good_deploy (p_hash pf) d -> expert_ok x (p_time pf) (d_header d) ->
  d_session d = SD.Transfer l -> S.len l = 4 ->
  carries l "source" is_account_type arg_view source ->
  carries l "target" is_account_type arg_view target ->
  carries l "amount" is_u512_type amount_view amount ->
  carries l "id" is_id_type arg_view id ->
  reviews pf x (enc_tx d)
    (around x d ((if x then [ln "From" source] else []) ++ [ln "Target" target; ln "Amount" amount]
                 ++ (if x then [ln "ID" id] else []))).
Proof. exact transfer4. Qed.
Print Assumptions C08_transfer_from_source_review.

(** The same for every deploy the specification describes (transfers,
    delegations, contract calls). *)
Theorem C08_deploy_review :
  forall pf x d lines, hash32 (p_hash pf) -> good_deploy (p_hash pf) d ->
  review (p_hash pf) x d = Some lines -> expert_ok x (p_time pf) (d_header d) ->
  reviews pf x (enc_tx d) lines.
Proof. exact deploy_review. Qed.
Print Assumptions C08_deploy_review.

Example C08_case : forall x,
  hash32 (p_hash demo) /\ good_deploy (p_hash demo) d_transfer /\ expert_ok x (p_time demo) (d_header d_transfer) /\
  exists l, d_session d_transfer = SD.Transfer l /\ S.len l = 3 /\
  carries l "target" is_account_type arg_view (KeyText 1 (repeat 34 32)) /\
  carries l "amount" is_u512_type amount_view (Motes 705032704) /\
  carries l "id" is_id_type arg_view (Number 7).
Proof.
  intros x. split; [exact demo_hash32|]. split; [exact d_transfer_good|]. split; [apply demo_expert; reflexivity|].
  eexists; split; [reflexivity|]. split; [reflexivity|].
  split; [eexists; repeat split|]. split; [eexists; repeat split|]. eexists; repeat split.
Qed.
Example C08_case_source : forall x,
  good_deploy (p_hash demo) d_transfer4 /\ expert_ok x (p_time demo) (d_header d_transfer4) /\
  exists l, d_session d_transfer4 = SD.Transfer l /\ S.len l = 4 /\
  carries l "source" is_account_type arg_view (Hex (repeat 35 32)) /\
  carries l "target" is_account_type arg_view (KeyText 1 (repeat 34 32)) /\
  carries l "amount" is_u512_type amount_view (Motes 705032704) /\
  carries l "id" is_id_type arg_view (Number 7).
Proof.
  intros x. split; [exact d_transfer4_good|]. split; [apply demo_expert; reflexivity|].
  eexists; split; [reflexivity|]. split; [reflexivity|]. split; [eexists; repeat split|].
  split; [eexists; repeat split|]. split; [eexists; repeat split|]. eexists; repeat split.
Qed.

(** ** C09  Delegation deploys show validator, delegator and amount *)
(** Stored contracts, in all four addressing forms; [nv] only matters for
    redelegations. *)
Theorem C09_stored_delegation_review :
  forall pf x d t ep l op dl v nv am,
  hash32 (p_hash pf) -> good_deploy (p_hash pf) d -> expert_ok x (p_time pf) (d_header d) ->
  d_session d = Stored t ep l -> operation_of ep = Some op -> S.len l = op_args op ->
  carries l "delegator" is_key_type arg_view dl -> carries l "validator" is_key_type arg_view v ->
  (op = ORedelegate -> carries l "new_validator" is_key_type arg_view nv) ->
  carries l "amount" is_amount_type amount_view am ->
  type_text (d_session d) = op_text op /\
  reviews pf x (enc_tx d) (around x d ((if x then target_review true t else []) ++ delegation_lines op dl v nv am)).
Proof. exact stored_delegation. Qed.
Print Assumptions C09_stored_delegation_review.

(** Module bytes (of at most 32 bytes, part of [good_deploy]) with an "auction"
    argument naming the operation. *)
Theorem C09_module_delegation_review :
  forall pf x d w l op dl v nv am,
  hash32 (p_hash pf) -> good_deploy (p_hash pf) d -> expert_ok x (p_time pf) (d_header d) ->
  d_session d = Module w l -> auction_op l = Some op -> plain_types l = true ->
  let l' := firstn (Z.to_nat (op_args op)) l in
  carries l' "delegator" is_key_type arg_view dl -> carries l' "validator" is_key_type arg_view v ->
  (op = ORedelegate -> carries l' "new_validator" is_key_type arg_view nv) ->
  carries l' "amount" is_amount_type amount_view am ->
  type_text (d_session d) = op_text op /\
  reviews pf x (enc_tx d)
    (around x d ((if x then code_review (p_hash pf) w else []) ++ delegation_lines op dl v nv am)).
Proof. exact module_delegation. Qed.
Print Assumptions C09_module_delegation_review.

Example C09_case :
  good_deploy (p_hash demo) d_delegate /\
  exists t ep l, d_session d_delegate = Stored t ep l /\ operation_of ep = Some ODelegate /\ S.len l = 3 /\
  carries l "delegator" is_key_type arg_view (KeyText 1 (repeat 17 32)) /\
  carries l "validator" is_key_type arg_view (KeyText 2 (repeat 5 33)) /\
  carries l "amount" is_amount_type amount_view (Motes 705032704).
Proof.
  split; [exact d_delegate_good|]. eexists _, _, _. split; [reflexivity|]. split; [reflexivity|]. split; [reflexivity|].
  split; [eexists; repeat split|]. split; [eexists; repeat split|]. eexists; repeat split.
Qed.
Example C09_case_redelegate :
  good_deploy (p_hash demo) d_redelegate /\
  exists t ep l, d_session d_redelegate = Stored t ep l /\ operation_of ep = Some ORedelegate /\ S.len l = 4 /\
  carries l "delegator" is_key_type arg_view (KeyText 1 (repeat 17 32)) /\
  carries l "validator" is_key_type arg_view (KeyText 2 (repeat 5 33)) /\
  carries l "new_validator" is_key_type arg_view (KeyText 1 (repeat 6 32)) /\
  carries l "amount" is_amount_type amount_view (Motes 705032704).
Proof.
  split; [exact d_redelegate_good|]. eexists _, _, _. split; [reflexivity|]. split; [reflexivity|]. split; [reflexivity|].
  split; [eexists; repeat split|]. split; [eexists; repeat split|]. split; [eexists; repeat split|]. eexists; repeat split.
Qed.
Example C09_case_module :
  good_deploy (p_hash demo) d_undelegate /\
  exists w l, d_session d_undelegate = Module w l /\ auction_op l = Some OUndelegate /\ plain_types l = true /\
  let l' := firstn 3 l in
  carries l' "delegator" is_key_type arg_view (KeyText 1 (repeat 17 32)) /\
  carries l' "validator" is_key_type arg_view (KeyText 2 (repeat 5 33)) /\
  carries l' "amount" is_amount_type amount_view (Motes 705032704).
Proof.
  split; [exact d_undelegate_good|]. eexists _, _. split; [reflexivity|]. split; [reflexivity|]. split; [reflexivity|]. cbv zeta.
  split; [eexists; repeat split|]. split; [eexists; repeat split|]. eexists; repeat split.
Qed.

(** ** C10  The argument hash covers every argument *)
(** Proved for the deploys the specification describes: contract calls have an
    argument hash, and any argument hash is the one of all arguments. *)
Theorem C10_args_hash_partial :
  forall pf x d lines, hash32 (p_hash pf) -> good_deploy (p_hash pf) d -> expert_ok x (p_time pf) (d_header d) ->
  review (p_hash pf) x d = Some lines ->
  reviews pf x (enc_tx d) lines /\
  (forall lab label bs, In (lab, ArgsHash label bs) lines -> bs = enc_args (args_of (d_session d))) /\
  (generic_call (d_session d) ->
     In (ln "Args hash" (ArgsHash (text "execution") (enc_args (args_of (d_session d))))) lines).
Proof. exact deploy_hashes. Qed.
Print Assumptions C10_args_hash_partial.

Example C10_case :
  good_deploy (p_hash demo) d_call /\ generic_call (d_session d_call) /\
  exists lines, review (p_hash demo) true d_call = Some lines /\ List.length lines = 16%nat.
Proof. split; [exact d_call_good|]. split; [reflexivity|]. eexists; split; reflexivity. Qed.

(** False in general: a native transfer with an argument the device does not
    know shows a hash of the count and the first argument only.  Two transfers
    to different recipients have the same review but for the transaction
    hash, although their argument lists have different hashes. *)
Theorem C10_args_hash_refuted :
  exists pf l1 l2 d1 d2, hash32 (p_hash pf) /\ lookalikes pf d1 d2 /\
    d_session d1 = SD.Transfer l1 /\ d_session d2 = SD.Transfer l2 /\
    find_arg (text "target") l1 <> find_arg (text "target") l2 /\
    p_hash pf (enc_args l1) <> p_hash pf (enc_args l2) /\
    existsb (is_key "Args hash") (all_items pf true (enc_tx d1)) = true.
Proof. exact args_hash_refuted. Qed.
Print Assumptions C10_args_hash_refuted.

(** ** C11  No argument is silently dropped from a recognised operation *)
(** Proved for transfers and stored-contract delegations with the standard
    arguments (those with a [review]). *)
Theorem C11_all_arguments_shown_partial :
  forall pf d lines, hash32 (p_hash pf) -> good_deploy (p_hash pf) d -> expert_ok true (p_time pf) (d_header d) ->
  review (p_hash pf) true d = Some lines -> recognised (d_session d) ->
  reviews pf true (enc_tx d) lines /\ Forall (shown_in lines) (args_of (d_session d)).
Proof. exact recognised_shows_all. Qed.
Print Assumptions C11_all_arguments_shown_partial.

Example C11_case :
  good_deploy (p_hash demo) d_redelegate /\ recognised (d_session d_redelegate) /\
  exists lines, review (p_hash demo) true d_redelegate = Some lines /\ List.length lines = 16%nat.
Proof. split; [exact d_redelegate_good|]. split; [discriminate|]. eexists; split; reflexivity. Qed.

(** False in general: a delegation with a fourth argument is shown as a plain
    delegation, and the argument appears nowhere. *)
Theorem C11_all_arguments_shown_refuted :
  exists pf d1 d2, hash32 (p_hash pf) /\ lookalikes pf d1 d2 /\
    type_text (d_session d1) = "Delegate"%string /\ type_text (d_session d2) = "Delegate"%string /\
    args_of (d_session d1) <> args_of (d_session d2) /\
    existsb (is_key "Args hash") (all_items pf true (enc_tx d1)) = false.
Proof. exact dropped_argument_refuted. Qed.
Print Assumptions C11_all_arguments_shown_refuted.

(** ** C43  Different transfer targets look different *)
(** Values of the same kind (two public keys, two byte strings, two amounts,
    ...) shown with the same text are equal. *)
Theorem C43_same_kind_partial :
  forall H tf a b d, same_kind a b -> renders H tf a d -> renders H tf b d -> a = b.
Proof. exact renders_inj. Qed.
Print Assumptions C43_same_kind_partial.

Example C43_case :
  let v := KeyText 2 (repeat 200 33) in
  same_kind v v /\ exists d, renders demo_hash demo_time v d.
Proof.
  cbv zeta. split; [|eexists; reflexivity]. split; [lia|]. split; apply bytesb_ok; reflexivity.
Qed.

(** False: account and contract keys with the same 32 bytes, and a purse with
    those bytes, are shown alike. *)
Theorem C43_targets_refuted :
  exists pf l1 l2 l3 d1 d2 d3, hash32 (p_hash pf) /\ lookalikes pf d1 d2 /\ lookalikes pf d2 d3 /\
    d_session d1 = SD.Transfer l1 /\ d_session d2 = SD.Transfer l2 /\ d_session d3 = SD.Transfer l3 /\
    find_arg (text "target") l1 <> find_arg (text "target") l2 /\
    (exists v w, find_arg (text "target") l1 = Some (Arg (text "target") v (Prim 11)) /\
                 find_arg (text "target") l3 = Some (Arg (text "target") w (Prim 12))).
Proof. exact target_variant_refuted. Qed.
Print Assumptions C43_targets_refuted.

(** ** C44  Custom payment code is not presented as a plain fee *)
Theorem C44_payment_code_refuted :
  exists pf d1 d2, hash32 (p_hash pf) /\ lookalikes pf d1 d2 /\
    p_code (d_payment d1) = [] /\ p_code (d_payment d2) <> [].
Proof. exact payment_code_refuted. Qed.
Print Assumptions C44_payment_code_refuted.

(** ** C45  The contract version shown is the one requested *)
Theorem C45_version_refuted :
  exists pf h ep l d1 d2, hash32 (p_hash pf) /\ lookalikes pf d1 d2 /\
    d_session d1 = Stored (ByHashV h None) ep l /\ d_session d2 = Stored (ByHashV h (Some 0)) ep l.
Proof. exact version_refuted. Qed.
Print Assumptions C45_version_refuted.
