(** Consequences of the parsing and review of whole TransactionV1s. *)
From Verif Require Import Base Zxlib Crypto Utils RuntimeArg Deploy DeployUI TxV1 TxV1UI Parser BaseFacts Spec SpecText SpecDeploy SpecTx Exec ArgsFacts ReaderFacts TextFacts Shows DeployArgs SessionFacts ReviewFacts RangeFacts BindFacts TxFacts TxBody TxShow TxReview.
Import S ST SD SX.

Lemma parse_of_accept pf x data t : tx_parse pf x data = Ret t -> parser_parse pf x data = Ret t.
Proof.
  unfold tx_parse, parser_parse. destruct (u16 (zlen data) =? 0); [discriminate|]. destruct data as [|k r]; [discriminate|].
  destruct (u16 (zlen (k :: r)) =? 1); [discriminate|]. unfold bind at 1.
  destruct (parse_content k _ 0) as [[v|c|u] o]; cbn [fst]; try discriminate.
  unfold bind. destruct (parser_validate v _ o) as [[its|c|u] o']; cbn [fst]; try discriminate. intros H. injection H as ->. reflexivity.
Qed.

Section Encoded.
Variable pf : platform.
Hypothesis Hh : forall y, zlen (p_hash pf y) = 32 /\ bytes (p_hash pf y).
Variables (x : bool) (t : transaction).
Hypothesis G : good_transaction (p_hash pf) t.
Let e0 := ctx_of pf x false 40 (enc_transaction t) (zlen (enc_transaction t)).

Lemma v1_nonempty : 0 < zlen (enc_transaction t) < 65535.
Proof.
  pose proof (gt_size _ _ G) as S. change (S.len (enc_v1 t)) with (zlen (enc_v1 t)) in S. unfold enc_v1 in S. rewrite zlen_cons in S. split; [|lia].
  unfold enc_transaction. rewrite zlen_table. rewrite !zlen_cons.
  match goal with |- context [8 + 6 * (1 + (1 + (1 + zlen ?n))) + zlen ?m] => pose proof (zlen_nonneg n); pose proof (zlen_nonneg m) end. lia.
Qed.
Lemma v1_parser_parse :
  parser_parse pf x (enc_v1 t)
  = match fst (parser_read_transactionV1 e0 0) with Ret v => Ret (TV1 v) | Fail c => Fail c | Undef u => Undef u end.
Proof.
  pose proof v1_nonempty as N. unfold parser_parse, enc_v1. rewrite zlen_cons. rewrite u16_small by lia.
  replace (1 + zlen (enc_transaction t) =? 0) with false by lia. replace (1 + zlen (enc_transaction t) =? 1) with false by lia.
  replace (1 + zlen (enc_transaction t) - 1) with (zlen (enc_transaction t)) by lia. fold e0.
  unfold parse_content. change (1 =? content_Deploy) with false. change (1 =? content_TransactionV1) with true. cbv iota.
  unfold bind. destruct (parser_read_transactionV1 e0 0) as [[v|c|u] o]; reflexivity.
Qed.

(** Acceptance by the parser, when the arguments start before byte 256. *)
Lemma v1_accept_iff : before_args t < 256 ->
  if acceptable (x_payload t) then parser_parse pf x (enc_v1 t) = Ret (TV1 (tx_obj x t))
  else exists c, parser_parse pf x (enc_v1 t) = Fail c.
Proof.
  intros L. rewrite (before_args_eq _ _ G) in L. rewrite v1_parser_parse.
  pose proof (v1_parse e0 t (v1_env pf x 40 t Hh G) ltac:(destruct (x_entry (x_payload t)); auto)) as PR.
  destruct (acceptable (x_payload t)).
  - rewrite PR. reflexivity.
  - destruct PR as (c & o & ->). exists c. reflexivity.
Qed.

(** C14 *)
Lemma mandatory_present n l v : before_args t < 256 ->
  x_entry (x_payload t) = Op n -> x_args (x_payload t) = Named l ->
  tx_parse pf x (enc_v1 t) = Ret v ->
  forall name u512, In (name, u512) (mandatory n) ->
  exists a, find_arg (text name) l = Some a /\ (u512 = true -> a_ty a = Prim 8).
Proof.
  intros L E A P name u I. apply parse_of_accept in P. pose proof (v1_accept_iff L) as Q.
  unfold acceptable in Q. rewrite E, A in Q. cbn [complete named] in Q.
  destruct (callable (Op n) (x_target (x_payload t))); cbn [andb] in Q; [|destruct Q as (c & Q); congruence].
  destruct (forallb (meets l) (mandatory n)) eqn:F; [|destruct Q as (c & Q); congruence].
  rewrite forallb_forall in F. specialize (F _ I). unfold meets in F. cbn [fst snd] in F.
  destruct (find_arg (text name) l) as [a|] eqn:FA; [|discriminate F]. exists a. split; [reflexivity|]. intros ->. cbn [negb orb] in F.
  destruct (a_ty a) as [k| | | | | | | |]; cbn [tag] in F; try discriminate F. f_equal. lia.
Qed.

(** What an accepted transaction is parsed to, wherever its arguments are. *)
Lemma v1_parsed v : parser_parse pf x (enc_v1 t) = Ret v -> v = TV1 (tx_obj x t) /\ sane e0 (x_payload t) = Ret tt.
Proof.
  rewrite v1_parser_parse. pose proof (v1_gen e0 t (v1_env pf x 40 t Hh G)) as Q. unfold follows in Q. change (expert e0) with x in Q.
  destruct (sane e0 (x_payload t)) as [[]|c|u].
  - rewrite Q. cbn [fst]. intros H. injection H as <-. split; reflexivity.
  - destruct Q as (o & ->). discriminate.
  - destruct Q as (o & ->). discriminate.
Qed.

(** C15 *)
Lemma stored_custom i r v : x_target (x_payload t) = XStored i r ->
  tx_parse pf x (enc_v1 t) = Ret v -> exists name, x_entry (x_payload t) = Custom name.
Proof.
  intros T P. apply parse_of_accept, v1_parsed in P. destruct P as [_ P].
  destruct (x_entry (x_payload t)) as [|name|n] eqn:E; [|eauto|]; exfalso; revert P;
    unfold sane, check_sanity_native_transfer; rewrite E, T, step_get_off; unfold bind at 1.
  - replace ((entry_no Call =? EntryPointCustom) || (target_no (XStored i r) =? TargetNative) || (target_no (XStored i r) =? TargetSession))
      with false by (destruct i; reflexivity). discriminate.
  - replace ((entry_no (Op n) =? EntryPointCustom) || (target_no (XStored i r) =? TargetNative) || (target_no (XStored i r) =? TargetSession))
      with false by (destruct i, n; reflexivity). discriminate.
Qed.

(** C18 *)
Lemma items_total : tx_items x (x_payload t) = item_count x (x_payload t).
Proof.
  unfold tx_items, item_count. change (S.len (named (x_args (x_payload t)))) with (zlen (named (x_args (x_payload t)))).
  assert (Tg : tgt_items x (x_target (x_payload t)) = match x_target (x_payload t) with XStored i _ => 3 + version_lines x i | _ => 0 end).
  { destruct (x_target (x_payload t)) as [|i r|]; [reflexivity| |reflexivity]. unfold tgt_items, version_lines, ver_item, ver_no, b2z.
    change (2 ^ 32 - 1) with NO_ENTITY_VERSION_PRESENT.
    destruct i as [h|n|h [v|]|n [v|]]; try reflexivity; try (rewrite andb_comm; reflexivity). }
  rewrite Tg. destruct (x_entry (x_payload t)) as [|nm|n]; [| |destruct n]; unfold entry_point_items; cbn [entry_no native_tag];
    ground_eqb; destruct x; lia.
Qed.
Lemma count_exact v : tx_parse pf x (enc_v1 t) = Ret v -> getNumItems x v = item_count x (x_payload t) mod 256.
Proof.
  intros P. apply parse_of_accept, v1_parsed in P. destruct P as [-> _]. cbn [getNumItems tx_obj numItems]. rewrite items_total. reflexivity.
Qed.
Lemma count_nonneg : 0 <= item_count x (x_payload t).
Proof.
  rewrite <- items_total. unfold tx_items, entry_point_items. pose proof (zlen_nonneg (named (x_args (x_payload t)))).
  assert (0 <= tgt_items x (x_target (x_payload t))).
  { destruct (x_target (x_payload t)) as [|i r|]; cbn [tgt_items]; try lia. unfold ver_item, b2z. destruct i; try lia;
    destruct (negb _ && _); lia. }
  repeat match goal with |- context [if ?b then _ else _] => destruct b end; lia.
Qed.
Lemma count_small v : tx_parse pf x (enc_v1 t) = Ret v -> item_count x (x_payload t) < 256 -> getNumItems x v = item_count x (x_payload t).
Proof. intros P L. rewrite (count_exact v P). apply Z.mod_small. pose proof count_nonneg. lia. Qed.

(** C17: the encoded transaction up to the arguments, and the arguments. *)
Lemma before_args_split : exists pre post, enc_transaction t = pre ++ arg_bytes (x_args (x_payload t)) ++ post /\
   zlen pre = before_args t - (match x_args (x_payload t) with Named _ => 4 | Raw _ => 0 end).
Proof.
  pose proof (v1_env pf x 40 t Hh G) as X. pose proof (pieces_of _ _ X) as Pc. pose proof (bpieces_of _ _ (pc_body _ _ Pc)) as Bc.
  rewrite (before_args_eq _ _ G). pose proof (bc_args _ _ Bc) as A. apply at_lv in A. destruct A as [_ A].
  assert (Q : at_ e0 (apos (x_payload t) - match x_args (x_payload t) with Named _ => 4 | Raw _ => 0 end) (arg_bytes (x_args (x_payload t)))).
  { destruct (x_args (x_payload t)) as [l|bs]; cbn [enc_xargs arg_bytes] in *.
    - apply (at_app _ _ [0]) in A. destruct A as [_ A]. unfold apos. change (zlen [0]) with 1 in A.
      replace (bpos (x_payload t) + 15 - 4) with (bpos (x_payload t) + 6 + 4 + 1) by lia. exact A.
    - apply (at_app _ _ [1]) in A. destruct A as [_ A]. apply at_lv in A. destruct A as [_ A]. unfold apos. change (zlen [1]) with 1 in A.
      replace (bpos (x_payload t) + 15 - 0) with (bpos (x_payload t) + 6 + 4 + 1 + 4) by lia. exact A. }
  unfold at_ in Q. apply slice_Some in Q. destruct Q as (pre & post & E & Z1 & _). exists pre, post. split; [exact E|exact Z1].
Qed.
Lemma offset_exact v : parser_parse pf x (enc_v1 t) = Ret v -> exists w, v = TV1 w /\ runtime_args_offset (targs w) = before_args t mod 256.
Proof.
  intros P. apply v1_parsed in P. destruct P as [-> _]. eexists. split; [reflexivity|]. rewrite (before_args_eq _ _ G).
  cbn [tx_obj targs]. unfold apos. replace (bpos (x_payload t) + 15) with (bpos (x_payload t) + 6 + 9) by lia.
  destruct (x_args (x_payload t)); reflexivity.
Qed.
End Encoded.

(** C16 *)
Lemma native_review pf x t n lines :
  (forall y, zlen (p_hash pf y) = 32 /\ bytes (p_hash pf y)) -> good_transaction (p_hash pf) t ->
  x_entry (x_payload t) = Op n -> x_target (x_payload t) = Native ->
  review (p_hash pf) x t = Some lines -> xexpert_ok x (p_time pf) (x_payload t) -> before_args t < 256 ->
  xreviews pf x (enc_v1 t) lines.
Proof. intros Hh G _ _ R EX L. exact (v1_review pf x t lines Hh G R EX L). Qed.
(** C19 *)
Lemma custom_shown pf x t name i r :
  (forall y, zlen (p_hash pf y) = 32 /\ bytes (p_hash pf y)) -> good_transaction (p_hash pf) t ->
  x_entry (x_payload t) = Custom name -> x_target (x_payload t) = XStored i r ->
  (x = true -> match i with ByHashV _ None | ByNameV _ None => False
                          | ByHashV _ (Some n) | ByNameV _ (Some n) => n <> 2 ^ 32 - 1 | _ => True end) ->
  xexpert_ok x (p_time pf) (x_payload t) -> before_args t < 256 ->
  exists v, tx_parse pf x (enc_v1 t) = Ret v /\
  forall l, In l [match i with ByHash h | ByHashV h _ => (text "Address", ByteDigits h) | ByName n | ByNameV n _ => xl "Name" (Text n) end;
                  xl "Entry-point" (Text name); xl "Args hash" (Hex (p_hash pf (arg_bytes (x_args (x_payload t)))))] ->
  exists k, 0 <= k < getNumItems x v /\
  forall kl, exists it, tx_getItem pf x kl (enc_v1 t) v k = Ret it /\ xshows (p_hash pf) (p_time pf) l it.
Proof.
  intros Hh G E T V EX L.
  assert (exists ls, custom_review (p_hash pf) x i name (x_args (x_payload t)) = Some ls /\
    forall l, In l [match i with ByHash h | ByHashV h _ => (text "Address", ByteDigits h) | ByName n | ByNameV n _ => xl "Name" (Text n) end;
                    xl "Entry-point" (Text name); xl "Args hash" (Hex (p_hash pf (arg_bytes (x_args (x_payload t)))))] -> In l ls) as (ls & C & I).
  { unfold custom_review. destruct i as [h|n|h [v|]|n [v|]]; destruct x; try (exfalso; exact (V eq_refl));
      repeat match goal with |- context [if ?v =? 2 ^ 32 - 1 then _ else _] => replace (v =? 2 ^ 32 - 1) with false by (specialize (V eq_refl); lia) end;
      (eexists; split; [reflexivity|]; cbn [In app]; tauto). }
  assert (R : exists lines, review (p_hash pf) x t = Some lines /\ forall l, In l ls -> In l lines).
  { unfold review, body_review. rewrite E, T, C. eexists. split; [reflexivity|]. intros l Hl. unfold frame. rewrite !in_app_iff. tauto. }
  destruct R as (lines & R & IL). destruct (v1_review pf x t lines Hh G R EX L) as (v & P & N & D). exists v. split; [exact P|].
  intros l Hl. apply I, IL in Hl. apply In_nth_error in Hl. destruct Hl as [k Hk]. exists (Z.of_nat k). split.
  - rewrite N. pose proof (nth_cases _ _ _ Hk). unfold zlen. lia.
  - intros kl. exact (D k l Hk kl).
Qed.
