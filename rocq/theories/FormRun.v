(** Reading the form of a TransactionV1: the converse of FormFacts. *)
From Verif Require Import Base Zxlib Crypto Utils RuntimeArg Deploy DeployUI TxV1 TxV1UI Parser BaseFacts Spec SpecText SpecDeploy SpecTx SpecLayout SpecRaw SpecForm SpecShow Exec ArgsFacts ReaderFacts TextFacts Demo Shows DeployArgs SessionFacts ReviewFacts TxFacts TxBody TxShow TxReview RangeFacts BindFacts BindCases SafeFacts TxInv RawFacts TxAccept FwdFacts FormFacts FormUnique FormReview.
Import S ST SD SX SL SR SF SW.

(** ** Tables *)
Lemma raw_entries_run l : forall e i o, wf e -> Forall word l -> at_ e o (raw_entries i l) -> 0 <= i -> i + zlen l < 65536 ->
  read_field_offsets (List.length l) i e o = (Ret l, o + 6 * zlen l).
Proof.
  induction l as [|f r IH]; intros e i o W F A Hi Li; cbn [List.length read_field_offsets].
  - cbv [ret]. apply pair_ret; [reflexivity | cbn; lia].
  - cbn [raw_entries] in A. rewrite !at_app, !le_length in A. destruct A as (A1 & A2 & A3). cbn [Z.of_nat Pos.of_succ_nat Pos.succ] in *.
    inversion F as [|? ? Wf Fr]; subst. rewrite zlen_cons in *. pose proof (zlen_nonneg r).
    step (readU16_at i e o W A1 ltac:(lia)). rewrite step_check by lia.
    step (readU32_at f e _ W A2 ltac:(unfold word in Wf; lia)).
    step (IH e (i + 1) (o + 2 + 4) W Fr A3 ltac:(lia) ltac:(lia)).
    cbv [ret]. apply pair_ret; [reflexivity | lia].
Qed.
Lemma zlen_raw_entries l : forall i, zlen (raw_entries i l) = 6 * zlen l.
Proof. induction l as [|f r IH]; intros i; cbn [raw_entries]; [reflexivity|]. rewrite !zlen_app, !le_length, IH, zlen_cons. lia. Qed.
Lemma heading_run t e o : wf e -> table_ok t -> at_ e o (heading t) -> read_metadata e o = (Ret (meta_of t), o + tsize t).
Proof.
  intros W T A. pose proof (at_bound _ _ _ W A) as B. rewrite zlen_heading in B. destruct T as [T1 T2 T3 T4 T5]. change (@S.len Z) with (@zlen Z) in *.
  unfold heading, raw_head in A. rewrite !at_app, !le_length in A. destruct A as (A1 & A2 & A3). rewrite zlen_raw_entries in A3. cbn [Z.of_nat Pos.of_succ_nat Pos.succ] in *.
  unfold read_metadata. rewrite step_ask, step_check by lia. rewrite step_get_off. unfold word in *.
  step (readU32_at _ e o W A1 ltac:(lia)). change (u8 (t_n t)) with (t_n t mod 256). rewrite <- T5.
  change MAX_METADATA_FIELDS with 10. rewrite step_check by lia.
  replace (Z.to_nat (zlen (t_offs t))) with (List.length (t_offs t)) by (unfold zlen; lia).
  step (raw_entries_run (t_offs t) e 0 _ W T2 A2 ltac:(lia) ltac:(lia)).
  step (readU32_at _ e _ W A3 ltac:(lia)). rewrite step_get_off.
  cbv [ret]. apply pair_ret; [|unfold tsize; lia]. unfold meta_of. f_equal. rewrite u16_small by lia. lia.
Qed.
Lemma starts_off t fs i : starts t fs -> (i < List.length fs)%nat -> foff (meta_of t) i = nth i (offsets 0 fs) 0.
Proof.
  intros [_ (m & E)] L. rewrite foff_off. unfold off. rewrite E, app_nth1; [reflexivity|].
  assert (Q : forall l q, List.length (offsets q l) = List.length l) by (induction l as [|f l IH]; intros q; [reflexivity|cbn; f_equal; apply IH]). rewrite Q. exact L.
Qed.
Ltac offs S := rewrite ?(starts_off _ _ 0 S), ?(starts_off _ _ 1 S), ?(starts_off _ _ 2 S), ?(starts_off _ _ 3 S), ?(starts_off _ _ 4 S), ?(starts_off _ _ 5 S) by (cbn; lia); cbn [offsets nth]; change (@S.len Z) with (@zlen Z) in *.
Lemma at_under e o t fs : wf e -> at_ e o (under t fs) -> at_ e o (heading t) /\ at_ e (o + tsize t) (List.concat fs) /\ 0 <= o /\ 8 <= tsize t /\ o + tsize t + zlen (List.concat fs) <= blen e.
Proof.
  intros W A. pose proof (at_bound _ _ _ W A) as B. unfold under in *. rewrite zlen_app, zlen_heading in B. apply at_app in A. rewrite zlen_heading in A.
  pose proof (zlen_nonneg (t_offs t)). unfold tsize. destruct A. split; [assumption|]. split; [assumption|]. split; [lia|]. lia.
Qed.

(** ** The header *)
Lemma key_run e o alg key : wf e -> at_ e o (alg :: key) -> any_key alg key -> read_public_key e o = (Ret tt, o + zlen (alg :: key)).
Proof.
  intros W A K. unfold any_key in K. change (@S.len Z) with (@zlen Z) in K. destruct K as [[-> ->]|[[-> L]|[-> L]]].
  - unfold read_public_key. step (readU8_at _ e _ W A). rewrite step_check by reflexivity. reflexivity.
  - apply key_at; auto.
  - apply key_at; auto.
Qed.
Lemma any_key_len alg key : any_key alg key -> 0 <= zlen key <= 33.
Proof. unfold any_key. change (@S.len Z) with (@zlen Z). intros [[_ ->]|[[_ ->]|[_ ->]]]; cbn; lia. Qed.
Lemma init_run e m pm o t a : wf e -> payload_first m pm = o -> at_ e o (under t (initiator_fields a)) ->
  covers t (initiator_fields a) -> S.len (t_offs t) = 2 -> form_initiator a ->
  read_initiator_address m pm e o = (Ret (20, zlen (init_bytes a)), o + zlen (under t (initiator_fields a))).
Proof.
  intros W PF A [C Sz] L F. destruct (at_under _ _ _ _ W A) as (A1 & A2 & B1 & B2 & B3). pose proof (wf_max e W) as Mx.
  change (@S.len Z) with (@zlen Z) in *. unfold read_initiator_address. step (heading_run t e o W (proj1 C) A1). rewrite PF.
  cbn [meta_of num_fields metadata_size fields_size]. rewrite Sz. change (@S.len Z) with (@zlen Z) in *. rewrite step_check by lia.
  unfold initiator_fields in *. offs C. fold (tsize t). cbn [List.concat] in *. rewrite app_nil_r in *. rewrite !zlen_app in *.
  match type of A2 with at_ _ _ ([?x] ++ _) => set (tag := x) in * end. change (zlen [tag]) with 1 in *.
  apply at_app in A2. destruct A2 as [A2 A3]. change (zlen [tag]) with 1 in A3.
  assert (IL : 0 <= zlen (init_bytes a) <= 34).
  { destruct a as [alg key|h]; cbn [init_bytes form_initiator] in *; [rewrite zlen_cons; apply any_key_len in F; lia|change (@S.len Z) with (@zlen Z) in F; lia]. }
  rewrite u32_small by lia. rewrite step_field by lia. step (readU8_at _ e _ W A2).
  rewrite step_check by (unfold tag; destruct a; reflexivity). rewrite step_field by lia. rewrite step_get_off.
  assert (RD : (if tag =? 0 then read_public_key else read_hash) e (o + tsize t + 1) = (Ret tt, o + tsize t + 1 + zlen (init_bytes a))).
  { destruct a as [alg key|h]; cbn [init_bytes form_initiator] in *; cbn [Z.eqb].
    - apply key_run; auto.
    - change (@S.len Z) with (@zlen Z) in F. rewrite F. apply (read_hash_at e _ h); auto. }
  step RD. rewrite step_field by lia. rewrite step_get_off. cbv [ret]. rewrite u8_small by lia.
  apply pair_ret; [f_equal; unfold tsize; lia|]. unfold under. cbn [List.concat]. rewrite app_nil_r, zlen_app, zlen_heading, zlen_app. change (zlen [tag]) with 1. unfold tsize. lia.
Qed.
Lemma price_run e m pm o t p : wf e -> u32 (payload_first m pm + foff pm 4 + tsize t) = o + tsize t -> at_ e o (under t (price_fields p)) ->
  covers t (price_fields p) -> form_price p ->
  read_pricing_mode m pm e o = (Ret (price_no p, tsize t), o + zlen (under t (price_fields p))).
Proof.
  intros W PF A [C Sz] F. destruct (at_under _ _ _ _ W A) as (A1 & A2 & B1 & B2 & B3). pose proof (wf_max e W) as Mx.
  assert (ZU : zlen (under t (price_fields p)) = tsize t + zlen (List.concat (price_fields p))) by (unfold under; rewrite zlen_app, zlen_heading; reflexivity).
  rewrite ZU. clear ZU A. unfold read_pricing_mode. step (heading_run t e o W (proj1 C) A1).
  cbn [meta_of metadata_size fields_size]. rewrite Sz. change (@S.len Z) with (@zlen Z) in *. fold (tsize t). rewrite PF.
  destruct p as [a g f|g f|r]; cbn [price_fields List.concat price_no form_price] in *; rewrite ?app_nil_r in *; rewrite !zlen_app in *;
    rewrite ?le_length in *; zn; cbn [Z.of_nat Pos.of_succ_nat Pos.succ] in *; gz.
  - offs C. rewrite le_length. zn. cbn [Z.of_nat Pos.of_succ_nat Pos.succ] in *.
    rewrite !at_app, le_length in A2. cbn [Z.of_nat Pos.of_succ_nat Pos.succ] in A2. destruct A2 as (AT & A2 & A3 & A4). zn.
    rewrite step_field by lia. step (readU8_at _ e _ W AT). rewrite step_field by lia. cbn [Z.eqb].
    rewrite !bind_assoc. step (readU64_at _ e _ W A2 ltac:(lia)). rewrite !bind_assoc, step_field by lia.
    rewrite !bind_assoc. step (readU8_at _ e _ W A3). rewrite !bind_assoc, step_field by lia. rewrite !bind_assoc.
    step (readU8_at _ e _ W A4). rewrite step_ret. rewrite step_field by lia. cbv [ret]. apply pair_ret; [reflexivity | lia].
  - offs C. zn. rewrite !at_app in A2. destruct A2 as (AT & A2 & A3). zn.
    rewrite step_field by lia. step (readU8_at _ e _ W AT). rewrite step_field by lia. cbn [Z.eqb Pos.eqb].
    rewrite !bind_assoc. step (readU8_at _ e _ W A2). rewrite !bind_assoc, step_field by lia. rewrite !bind_assoc.
    step (readU8_at _ e _ W A3). rewrite step_ret. rewrite step_field by lia. cbv [ret]. apply pair_ret; [reflexivity | lia].
  - offs C. zn. rewrite !at_app in A2. destruct A2 as (AT & A2). zn.
    rewrite step_field by lia. step (readU8_at _ e _ W AT). rewrite step_field by lia. cbn [Z.eqb Pos.eqb].
    step (read_hash_at _ _ _ W A2 F). rewrite step_field by lia. cbv [ret]. apply pair_ret; [reflexivity | lia].
Qed.
Lemma zlen_under t fs : zlen (under t fs) = tsize t + zlen (List.concat fs).
Proof. unfold under. rewrite zlen_app, zlen_heading. reflexivity. Qed.
Lemma header_run e k u : form_at e k u -> let m := meta_of (n_top k) in let pm := meta_of (n_payload k) in
  payload_first m pm = pay_at k /\
  read_txV1_header m pm e (pay_at k) = (Ret (header_obj (f_initiator u) (f_chain u) (n_price k) (f_price u)), body_at k u).
Proof.
  intros [W F N A] m pm. pose proof (at_bound _ _ _ W A) as B. pose proof (wf_max e W) as Mx.
  assert (ZH : zlen (f_hash u) = 32) by exact (fo_hash _ F).
  rewrite !zlen_app, zlen_heading, ZH in B. unfold form_payload in B, A. rewrite zlen_under in B. fold (tsize (n_top k)) in B.
  apply at_app in A. destruct A as [_ A]. apply at_app in A. destruct A as [_ A]. unfold under at 1 in A. apply at_app in A. destruct A as [_ A].
  rewrite !zlen_heading, ZH in A. fold (tsize (n_top k)) (tsize (n_payload k)) in A. replace (0 + tsize (n_top k) + 32 + tsize (n_payload k)) with (pay_at k) in A by (unfold pay_at; lia).
  assert (G1 : 8 <= tsize (n_top k)) by (unfold tsize; pose proof (zlen_nonneg (t_offs (n_top k))); lia).
  assert (G2 : 8 <= tsize (n_payload k)) by (unfold tsize; pose proof (zlen_nonneg (t_offs (n_payload k))); lia).
  destruct (no_top _ _ N) as [Ct _]. destruct (no_payload _ _ N) as [Cp _]. destruct (no_initiator _ _ N) as [Ci Li].
  assert (PF : payload_first m pm = pay_at k).
  { unfold payload_first, m, pm. rewrite (starts_off _ _ 1 Ct) by (cbn; lia). cbn [top_fields offsets nth meta_of metadata_size]. change (@S.len Z) with (@zlen Z). rewrite ZH.
    fold (tsize (n_top k)) (tsize (n_payload k)). rewrite u32_small by (pose proof (zlen_nonneg (List.concat (form_fields k u))); lia). unfold pay_at. lia. }
  split; [exact PF|]. assert (PN : 0 <= pay_at k) by (unfold pay_at; lia).
  assert (PB : pay_at k + zlen (List.concat (form_fields k u)) <= blen e) by (unfold pay_at; lia).
  unfold form_fields in A, PB, Cp. cbn [List.concat] in A, PB. rewrite !zlen_app, !le_length, !zlen_lv in PB.
  apply at_app in A. destruct A as [AI A]. apply at_app in A. destruct A as [AT A]. apply at_app in A. destruct A as [AL A]. apply at_app in A. destruct A as [AC A]. apply at_app in A. destruct A as [AP _].
  rewrite !le_length, !zlen_lv in *. cbn [Z.of_nat Pos.of_succ_nat Pos.succ] in *.
  set (li := zlen (under (n_initiator k) (initiator_fields (f_initiator u)))) in *. set (lp := zlen (under (n_price k) (price_fields (f_price u)))) in *.
  assert (0 <= li) by apply zlen_nonneg. assert (0 <= lp) by apply zlen_nonneg. pose proof (zlen_nonneg (f_chain u)).
  assert (lp = tsize (n_price k) + zlen (List.concat (price_fields (f_price u)))) as ZP by apply zlen_under.
  pose proof (zlen_nonneg (List.concat (price_fields (f_price u)))). assert (8 <= tsize (n_price k)) by (unfold tsize; pose proof (zlen_nonneg (t_offs (n_price k))); lia).
  assert (BA : body_at k u = pay_at k + li + 8 + 8 + (4 + zlen (f_chain u)) + lp) by (unfold body_at; fold li lp; rewrite zlen_lv; unfold pay_at; lia).
  assert (PB2 : body_at k u <= blen e).
  { unfold section in PB. rewrite !zlen_app, !le_length in PB. rewrite BA.
    pose proof (zlen_nonneg (argument_bytes (f_args u))). pose proof (zlen_nonneg (under (snd (n_target k)) (target_fields k (f_target u)))).
    pose proof (zlen_nonneg (under (snd (n_entry k)) (entry_fields (f_entry u)))). pose proof (zlen_nonneg (under (snd (n_sched k)) [[0]])). change (zlen []) with 0 in PB. lia. }
  unfold read_txV1_header. rewrite PF. unfold pm. offs Cp. rewrite !le_length, zlen_lv. fold li lp. cbn [Z.of_nat Pos.of_succ_nat Pos.succ].
  rewrite step_field by lia. fold pm. step (init_run e m pm _ _ _ W PF AI Ci Li (fo_initiator _ F)). fold li.
  rewrite step_field by lia. step (readU64_at _ e _ W AT (fo_time _ F)). rewrite step_field by lia. step (readU64_at _ e _ W AL (fo_ttl _ F)). rewrite step_field by lia.
  unfold read_chain_name, read_string. rewrite !bind_assoc. step (read_bytes_at _ e _ W AC). rewrite step_ret. rewrite zlen_lv. rewrite step_field by lia.
  assert (PQ : u32 (payload_first m pm + foff pm 4 + tsize (n_price k)) = pay_at k + li + 8 + 8 + (4 + zlen (f_chain u)) + tsize (n_price k)).
  { rewrite PF. unfold pm. offs Cp. rewrite !le_length, zlen_lv. fold li. cbn [Z.of_nat Pos.of_succ_nat Pos.succ]. rewrite u32_small; lia. }
  step (price_run e m pm _ _ _ W PQ AP (no_price _ _ N) (fo_price _ F)). fold lp. rewrite step_field by lia.
  cbv [ret]. rewrite BA. reflexivity.
Qed.

(** ** The arguments *)
Lemma raw_arg_run r e o : wf e -> readable r -> at_ e o (raw_bytes r) -> read_arg e o = (Ret tt, o + zlen (raw_bytes r)).
Proof.
  intros W R A. unfold raw_bytes in *. rewrite !at_app in A. destruct A as (A1 & A2 & A3).
  unfold read_arg, read_string, read_clvalue. step (read_bytes_at _ e _ W A1). step (read_bytes_at _ e _ W A2).
  destruct (type_run (r_ty r) 0 e _ W R A3) as (it & T). step T. cbv [ret]. rewrite !zlen_app. apply pair_ret; [reflexivity|lia].
Qed.
Lemma raw_args_run l e o : wf e -> Forall readable l -> at_ e o (args_bytes l) ->
  iter_loop (R := unit) (List.length l) (fun _ => read_arg ;; ret (Next tt)) tt e o = (Ret (Next tt), o + zlen (args_bytes l)).
Proof.
  intros W F. revert o. induction F as [|r l R F IH]; intros o A; [cbn; pr|].
  rewrite args_cons in *. apply at_app in A. destruct A as [A1 A2]. cbn [List.length iter_loop].
  rewrite bind_assoc. step (raw_arg_run r e o W R A1). rewrite step_ret. rewrite (IH _ A2), zlen_app. pr.
Qed.
Lemma zlen_raw_args l : zlen l <= zlen (args_bytes l).
Proof.
  induction l as [|r l IH]; [cbn; lia|]. rewrite args_cons, zlen_app, zlen_cons. unfold raw_bytes. rewrite !zlen_app, !zlen_lv.
  pose proof (zlen_nonneg (r_name r)). pose proof (zlen_nonneg (r_val r)). pose proof (zlen_nonneg (r_ty r)). lia.
Qed.
Lemma args_run n x e o : wf e -> word n -> at_ e o (le 4 n ++ argument_bytes x) -> form_args x ->
  read_args e o = (Ret (args_obj o n x), o + 4 + zlen (argument_bytes x)).
Proof.
  intros W Wn A F. pose proof (at_bound _ _ _ W A) as B. pose proof (wf_max e W) as Mx. rewrite zlen_app, le_length in B. apply at_app in A. destruct A as [A1 A2]. rewrite le_length in A2. cbn [Z.of_nat Pos.of_succ_nat Pos.succ] in *.
  unfold read_args. unfold word in Wn. step (readU32_at _ e _ W A1 ltac:(lia)).
  destruct x as [l|bs]; cbn [argument_bytes form_args args_obj] in *; rewrite zlen_cons in *; apply (at_app e _ [_]) in A2; destruct A2 as [A2 A3]; change (zlen [_]) with 1 in A3;
    step (readU8_at _ e _ W A2); cbn [Z.eqb Pos.eqb].
  - rewrite zlen_app, le_length in *. apply at_app in A3. destruct A3 as [A3 A4]. rewrite le_length in A4. cbn [Z.of_nat Pos.of_succ_nat Pos.succ] in *. change (S.len l) with (zlen l) in *.
    pose proof (zlen_raw_args l). pose proof (zlen_nonneg l). assert (0 <= o) by (pose proof (at_bound _ _ _ W A1); lia).
    step (readU32_at _ e _ W A3 ltac:(lia)). rewrite step_get_off.
    assert (X : loop (R := unit) (zlen l) (fun _ => read_arg ;; ret (Next tt)) tt e (o + 4 + 1 + 4) = (Ret (Next tt), o + 4 + 1 + 4 + zlen (args_bytes l))).
    { rewrite loop_iter. unfold zlen at 1. rewrite Nat2Z.id. apply raw_args_run; auto. }
    step X. cbv [ret]. apply pair_ret; [|lia]. f_equal. f_equal. lia.
  - rewrite step_get_off. step (read_bytes_at _ e _ W A3). cbv [ret]. rewrite zlen_lv in *. apply pair_ret; [|lia]. f_equal. f_equal. lia.
Qed.

(** ** The target *)
Lemma runtime_run t r e o : wf e -> at_ e o (under t (runtime_fields r)) -> table_ok t -> good_runtime r ->
  read_runtime e o = (Ret tt, o + zlen (under t (runtime_fields r))).
Proof.
  intros W A T G. destruct (at_under _ _ _ _ W A) as (A1 & A2 & B1 & B2 & B3). rewrite zlen_under in *. unfold read_runtime. step (heading_run t e o W T A1).
  destruct r as [|v s]; cbn [runtime_fields good_runtime List.concat] in *; rewrite ?app_nil_r in *.
  - step (readU8_at _ e _ W A2). cbn [Z.eqb]. unfold check. zn. apply pair_ret; [reflexivity|lia].
  - rewrite !at_app, le_length in A2. zn. rewrite !zlen_app, le_length in *. zn. cbn [Z.of_nat Pos.of_succ_nat Pos.succ] in *. destruct A2 as (A2 & A3 & A4).
    step (readU8_at _ e _ W A2). cbn [Z.eqb Pos.eqb]. step (readU64_at _ e _ W A3 ltac:(lia)). destruct s as [h|].
    + apply (at_app e _ [1] h) in A4. destruct A4 as [A4 A5]. step (readU8_at _ e _ W A4). cbn [Z.eqb Pos.eqb].
      destruct G as [_ G]. change (S.len h) with (zlen h) in G. change (zlen [1]) with 1 in A5. rewrite (read_hash_at _ _ _ W A5 G), zlen_cons, G. apply pair_ret; [reflexivity|lia].
    + step (readU8_at _ e _ W A4). cbn [Z.eqb Pos.eqb]. unfold check. zn. apply pair_ret; [reflexivity|lia].
Qed.
Lemma id_run t i r0 e o : wf e -> at_ e o (under t (id_fields i)) -> table_ok t -> form_id i ->
  bind read_metadata (fun _ => read_stored) e o = (Ret (id_obj (o + tsize t) i, tgt_items (expert e) (XStored i r0)), o + zlen (under t (id_fields i))).
Proof.
  intros W A T G. destruct (at_under _ _ _ _ W A) as (A1 & A2 & B1 & B2 & B3). rewrite zlen_under in *. step (heading_run t e o W T A1).
  destruct i as [h|n|h v|n v]; cbn [id_fields form_id List.concat id_obj tgt_items] in *; rewrite ?app_nil_r in *; rewrite ?zlen_app, ?zlen_lv in *; zn;
    rewrite ?at_app in A2; zn; unfold read_stored, read_entity_address, read_string.
  - destruct A2 as [A2 A3]. change (S.len h) with (zlen h) in G.
    step (readU8_at _ e _ W A2). rewrite step_ask, step_get_off. cbn [Z.eqb]. step (read_hash_at _ _ _ W A3 G). cbv [ret]. apply pair_ret; [|lia]. reflexivity.
  - destruct A2 as [A2 A3].
    step (readU8_at _ e _ W A2). rewrite step_ask, step_get_off. cbn [Z.eqb Pos.eqb]. step (read_bytes_at _ _ _ W A3). cbv [ret]. rewrite zlen_lv. apply pair_ret; [|lia]. f_equal. f_equal. lia.
  - destruct A2 as (A2 & A3 & A4). destruct G as [G Gv]. change (S.len h) with (zlen h) in G.
    step (readU8_at _ e _ W A2). rewrite step_ask, step_get_off. cbn [Z.eqb Pos.eqb].
    step (read_hash_at _ _ _ W A3 G). rewrite G in *. step (version_at _ _ _ W A4 Gv). cbv [ret]. apply pair_ret; [|lia]. reflexivity.
  - destruct A2 as (A2 & A3 & A4). rewrite zlen_lv in A4.
    step (readU8_at _ e _ W A2). rewrite step_ask, step_get_off. cbn [Z.eqb Pos.eqb].
    step (read_bytes_at _ _ _ W A3). rewrite zlen_lv in *. step (version_at _ _ _ W A4 G). cbv [ret]. apply pair_ret; [|lia].
    fold (ver_no v). unfold ver_item. f_equal. f_equal. lia.
Qed.
Lemma target_run k y e o : wf e -> word (fst (n_target k)) ->
  at_ e o (le 4 (fst (n_target k)) ++ under (snd (n_target k)) (target_fields k y)) -> form_target y ->
  match y with Native => covers (snd (n_target k)) (target_fields k Native) | t => starts (snd (n_target k)) (firstn 2 (target_fields k t)) end ->
  match y with XStored _ _ => table_ok (n_id k) | _ => True end -> match y with Native => True | _ => table_ok (n_runtime k) end ->
  read_target e o = (Ret (target_obj o (snd (n_target k)) (n_id k) y, tgt_items (expert e) y), o + 4 + zlen (under (snd (n_target k)) (target_fields k y))).
Proof.
  intros W Wn A G Ct Ci Cr. pose proof (wf_max e W) as Mx. apply at_app in A. destruct A as [A1 A]. rewrite le_length in A. cbn [Z.of_nat Pos.of_succ_nat Pos.succ] in *.
  unfold read_target. unfold word in Wn. step (readU32_at _ e _ W A1 ltac:(lia)). set (t := snd (n_target k)) in *.
  destruct (at_under _ _ _ _ W A) as (H1 & H2 & B1 & B2 & B3). rewrite zlen_under in *. pose proof (zlen_nonneg (List.concat (target_fields k y))).
  assert (T : table_ok t) by (destruct y; [exact (proj1 (proj1 Ct))|exact (proj1 Ct)|exact (proj1 Ct)]).
  step (heading_run t e _ W T H1). rewrite step_get_off.
  destruct y as [|i r|u r w]; cbn [target_fields firstn form_target tgt_items target_obj] in *.
  - destruct Ct as [Cs Sz]. offs Cs. cbn [List.concat app] in *. zn. cbn [meta_of fields_size]. rewrite Sz. zn.
    rewrite step_field by lia. step (readU8_at _ e _ W H2). cbn [Z.eqb]. rewrite step_field by lia. cbv [ret]. apply pair_ret; [reflexivity|lia].
  - offs Ct. cbn [List.concat] in *. rewrite app_nil_r in *. rewrite !zlen_app in *. zn. rewrite !at_app in H2. zn. destruct H2 as (H2 & H3 & H4). destruct G as [Gi Gr].
    rewrite step_field by lia. step (readU8_at _ e _ W H2). cbn [Z.eqb Pos.eqb].
    pose proof (zlen_nonneg (under (n_id k) (id_fields i))). pose proof (zlen_nonneg (under (n_runtime k) (runtime_fields r))).
    rewrite step_field by lia.
    pose proof (id_run _ i r e _ W H3 Ci Gi) as X.
    assert (Y : forall (q : TxV1.target * Z -> P (TxV1.target * Z)) e o, bind read_metadata (fun _ => bind read_stored q) e o = bind (bind read_metadata (fun _ => read_stored)) q e o)
      by (intros q e0 o0; symmetry; apply bind_assoc).
    rewrite Y. step X. step (runtime_run _ r e _ W H4 Cr Gr). cbv [ret]. apply pair_ret; [reflexivity|lia].
  - offs Ct. cbn [List.concat] in *. rewrite app_nil_r in *. rewrite !zlen_app in *. zn. rewrite !at_app in H2. zn. destruct H2 as (H2 & H3 & H4 & H5).
    pose proof (zlen_nonneg (under (n_runtime k) (runtime_fields r))). pose proof (zlen_nonneg (lv w)).
    rewrite step_field by lia. step (readU8_at _ e _ W H2). cbn [Z.eqb Pos.eqb]. rewrite step_field by lia.
    unfold read_bool. rewrite !bind_assoc. step (readU8_at _ e _ W H3). rewrite bind_assoc, step_check by (destruct u; reflexivity).
    rewrite step_ret. step (runtime_run _ r e _ W H4 Cr G). step (read_bytes_at _ e _ W H5). cbv [ret]. apply pair_ret; [reflexivity|lia].
Qed.

(** ** The entry point, up to the check of mandatory arguments *)
Lemma entry_run n t z ao tn e o : wf e -> word n -> at_ e o (le 4 n ++ under t (entry_fields z)) -> covers t (entry_fields z) ->
  read_entry_point ao tn e o
  = bind (check_sanity_native_transfer ao (entry_no z) tn) (fun _ => ret (entry_obj (expert e) o t (num_runtime_args ao) z)) e (o + 4 + zlen (under t (entry_fields z))).
Proof.
  intros W Wn A [C Sz]. pose proof (wf_max e W) as Mx. apply at_app in A. destruct A as [A1 A]. rewrite le_length in A. cbn [Z.of_nat Pos.of_succ_nat Pos.succ] in *.
  unfold read_entry_point. unfold word in Wn. step (readU32_at _ e _ W A1 ltac:(lia)).
  destruct (at_under _ _ _ _ W A) as (H1 & H2 & B1 & B2 & B3). rewrite zlen_under in *. pose proof (zlen_nonneg (List.concat (entry_fields z))).
  step (heading_run t e _ W (proj1 C) H1). rewrite step_get_off. cbn [meta_of fields_size]. rewrite Sz. change (@S.len Z) with (@zlen Z).
  destruct z as [|nm|q]; cbn [entry_fields List.concat app] in *; offs C; rewrite ?app_nil_r in *; zn; unfold entry_obj; cbn [entry_no name_len].
  - rewrite step_field by lia. step (readU8_at _ e _ W H2). rewrite step_check by reflexivity.
    change (0 =? EntryPointCustom) with false. cbv iota. rewrite step_ret, step_field by lia. rewrite step_ask. cbn [fst snd]. f_equal. lia.
  - apply (at_app e _ [1]) in H2. destruct H2 as [H2 H3]. change (zlen [1]) with 1 in H3. rewrite ?zlen_cons, ?zlen_lv in *. pose proof (zlen_nonneg nm).
    rewrite step_field by lia. step (readU8_at _ e _ W H2). rewrite step_check by reflexivity.
    change (1 =? EntryPointCustom) with true. cbv iota. rewrite !bind_assoc, step_field by lia. rewrite !bind_assoc, step_get_off, !bind_assoc.
    step (read_bytes_at _ e _ W H3). rewrite step_ret. rewrite zlen_lv. rewrite step_field by lia. rewrite step_ask. cbn [fst snd].
    replace (o + 4 + tsize t + 1 + 4) with (o + 4 + tsize t + 5) by lia. f_equal. lia.
  - rewrite step_field by lia. step (readU8_at _ e _ W H2). rewrite step_check by (destruct q; reflexivity).
    replace (native_tag q =? EntryPointCustom) with false by (destruct q; reflexivity). cbv iota. rewrite step_ret, step_field by lia. rewrite step_ask. cbn [fst snd]. f_equal. lia.
Qed.
Lemma sched_run n t e o : wf e -> word n -> at_ e o (le 4 n ++ under t [[0]]) -> covers t [[0]] ->
  read_scheduling e o = (Ret tt, o + 4 + zlen (under t [[0]])).
Proof.
  intros W Wn A [C Sz]. pose proof (wf_max e W) as Mx. apply at_app in A. destruct A as [A1 A]. rewrite le_length in A. cbn [Z.of_nat Pos.of_succ_nat Pos.succ] in *.
  unfold read_scheduling. unfold word in Wn. step (readU32_at _ e _ W A1 ltac:(lia)).
  destruct (at_under _ _ _ _ W A) as (H1 & H2 & B1 & B2 & B3). rewrite zlen_under in *. cbn [List.concat app] in *. zn.
  step (heading_run t e _ W (proj1 C) H1). rewrite step_get_off. cbn [meta_of fields_size]. rewrite Sz. cbn [List.concat app]. offs C. zn.
  rewrite step_field by lia. step (readU8_at _ e _ W H2). rewrite step_check by reflexivity. rewrite field_at by lia. apply pair_ret; [reflexivity|lia].
Qed.

(** ** The body *)
Lemma ttype_form o tt0 id y : ttype (target_obj o tt0 id y) = target_no y.
Proof. destruct y as [|[]|]; reflexivity. Qed.
Lemma nargs_form o n x : num_runtime_args (args_obj o n x) = nargs x.
Proof. destruct x; reflexivity. Qed.
(** end of the entry point *)
Definition entry_end (o : Z) (k : numbers) (x : argument_list) (y : xtarget) (z : entry) : Z :=
  entry_at o k x y + 4 + zlen (under (snd (n_entry k)) (entry_fields z)).
Definition sane_form (e : env) (o : Z) (k : numbers) (x : argument_list) (y : xtarget) (z : entry) : outcome unit :=
  fst (check_sanity_native_transfer (args_obj (o + 6) (n_args k) x) (entry_no z) (target_no y) e (entry_end o k x y z)).
Lemma body_run e o k x y z : wf e -> at_ e o (body_bytes k x y z) -> body_numbers k y z -> form_args x -> form_target y ->
  follows (sane_form e o k x y z) (read_txV1_body e o) (body_obj (expert e) o k x y z) (o + zlen (body_bytes k x y z)).
Proof.
  intros W A N Fx Fy. pose proof (at_bound _ _ _ W A) as B. pose proof (wf_max e W) as Mx. destruct N as [Na Nt Ne Ns Ct Ci Cr Ce Cs].
  unfold body_bytes, section in *. rewrite !zlen_app, !le_length in *. cbn [Z.of_nat Pos.of_succ_nat Pos.succ] in *.
  pose proof (zlen_nonneg (argument_bytes x)). pose proof (zlen_nonneg (under (snd (n_target k)) (target_fields k y))).
  pose proof (zlen_nonneg (under (snd (n_entry k)) (entry_fields z))). pose proof (zlen_nonneg (under (snd (n_sched k)) [[0]])).
  apply at_app in A. destruct A as [A0 A]. rewrite <- !app_assoc in A.
  apply at_app in A. destruct A as [K0 A]. rewrite (app_assoc (le 4 (n_args k))) in A. apply at_app in A. destruct A as [AX A].
  apply at_app in A. destruct A as [K1 A]. rewrite (app_assoc (le 4 (fst (n_target k)))) in A. apply at_app in A. destruct A as [AY A].
  apply at_app in A. destruct A as [K2 A]. rewrite (app_assoc (le 4 (fst (n_entry k)))) in A. apply at_app in A. destruct A as [AZ A].
  apply at_app in A. destruct A as [K3 AS]. rewrite !zlen_app, !le_length in *. cbn [Z.of_nat Pos.of_succ_nat Pos.succ] in *.
  assert (Po : 0 <= o) by lia.
  unfold read_txV1_body. step (readU32_at _ e _ W A0 ltac:(lia)). rewrite step_check by reflexivity.
  rewrite (field_key_at 0 _ _ _ W K0) by lia. step (args_run _ _ e _ W Na AX Fx).
  replace (o + 4 + 2 + (4 + zlen (argument_bytes x))) with (o + 4 + 2 + 4 + zlen (argument_bytes x)) in * by lia.
  rewrite (field_key_at 1 _ _ _ W K1) by lia. step (target_run k y e _ W Nt AY Fy Ct Ci Cr).
  set (ly := zlen (under (snd (n_target k)) (target_fields k y))) in *.
  replace (o + 4 + 2 + 4 + zlen (argument_bytes x) + 2) with (target_at o x) in * by (unfold target_at; lia).
  replace (target_at o x + (4 + ly)) with (target_at o x + 4 + ly) in * by lia.
  rewrite (field_key_at 2 _ _ _ W K2) by lia. cbn [fst]. rewrite ttype_form.
  replace (target_at o x + 4 + ly + 2) with (entry_at o k x y) in * by (unfold entry_at; fold ly; lia).
  rewrite (bind_congr _ _ _ e _ _ (entry_run _ _ z _ (target_no y) e _ W Ne AZ Ce)). rewrite bind_assoc, nargs_form.
  replace (o + 4 + 2) with (o + 6) by lia. fold (entry_end o k x y z).
  set (lz := zlen (under (snd (n_entry k)) (entry_fields z))) in *.
  replace (entry_at o k x y + (4 + lz)) with (entry_end o k x y z) in * by (unfold entry_end; fold lz; lia).
  assert (Ho : 0 <= entry_end o k x y z < 65536) by (unfold entry_end, entry_at, target_at; fold ly lz; lia).
  unfold sane_form, follows.
  destruct (check_sanity_native_transfer _ _ _ e (entry_end o k x y z)) as [[v|c|v] o'] eqn:X; cbn [fst].
  - pose proof (sanity_off _ _ _ _ _ _ _ Ho X) as ->. destruct v. step X. rewrite step_ret.
    rewrite (field_key_at 3 _ _ _ W K3) by lia. step (sched_run _ _ e _ W Ns AS Cs). cbv [ret].
    apply pair_ret; [reflexivity|]. unfold entry_end, entry_at, target_at; fold ly lz; lia.
  - exists o'. apply bind_Fail. exact X.
  - exists o'. unfold bind. rewrite X. reflexivity.
Qed.

(** ** Approvals *)
(** The last 64 bytes are skipped, present or not. *)
Lemma approved_run a s e o : wf e -> form_approved a -> at_ e o ([p_alg a] ++ p_key a ++ [p_sigalg a] ++ s) -> 0 <= o -> o + zlen (approved_bytes a) < 65536 ->
  bind read_public_key (fun _ => bind read_signature (fun _ => ret (@Next unit unit tt))) e o = (Ret (Next tt), o + zlen (approved_bytes a)).
Proof.
  intros W (K & Sg & L) A Po B. unfold approved_bytes in *. change (S.len (p_sig a)) with (zlen (p_sig a)) in L.
  change ([p_alg a] ++ p_key a ++ [p_sigalg a] ++ s) with ((p_alg a :: p_key a) ++ [p_sigalg a] ++ s) in A. apply at_app in A. destruct A as [A1 A2]. apply at_app in A2. destruct A2 as [A2 _].
  rewrite !zlen_app in *. zn. pose proof (zlen_nonneg (p_key a)). step (key_run _ _ _ _ W A1 K). unfold read_signature. rewrite !bind_assoc. rewrite zlen_cons. step (readU8_at _ e _ W A2).
  rewrite bind_assoc, step_check by (destruct Sg as [-> | ->]; reflexivity). unfold advance. rewrite bind_assoc, step_get_off, step_set_off by lia.
  cbv [ret]. apply pair_ret; [reflexivity|lia].
Qed.
Lemma approved_all_run l e o : wf e -> Forall form_approved l -> at_ e o (List.concat (List.map approved_bytes l)) ->
  iter_loop (R := unit) (List.length l) (fun _ => read_public_key ;; read_signature ;; ret (Next tt)) tt e o
  = (Ret (Next tt), o + zlen (List.concat (List.map approved_bytes l))).
Proof.
  intros W F. revert o. induction F as [|a l Fa F IH]; intros o A; [cbn; pr|].
  cbn [List.map List.concat List.length iter_loop] in *. apply at_app in A. destruct A as [A1 A2]. pose proof (at_bound _ _ _ W A1). pose proof (wf_max e W).
  assert (0 <= o) by (apply at_here in A1; destruct A1 as (? & ? & _ & <-); apply zlen_nonneg).
  step (approved_run a (p_sig a) e o W Fa A1 ltac:(lia) ltac:(lia)). rewrite (IH _ A2), zlen_app. pr.
Qed.
Lemma iter_app {S R} n m (f : S -> P (flow S R)) : forall s s' e o o', iter_loop n f s e o = (Ret (Next s'), o') -> iter_loop (n + m) f s e o = iter_loop m f s' e o'.
Proof.
  induction n as [|n IH]; intros s s' e o o' H; cbn [iter_loop Nat.add] in *.
  - cbv [ret] in H. injection H as -> ->. reflexivity.
  - unfold bind in *. destruct (f s e o) as [[[q|q]|c|c] o1]; try discriminate. apply IH. exact H.
Qed.
Lemma approvals_run l e o o' : wf e -> Forall form_approved l -> mostly (missing l) e o (approvals_bytes l) o' -> 0 <= o -> o' < 65536 ->
  read_txV1_approvals e o = (Ret (u8 (zlen l)), o').
Proof.
  intros W F (-> & b1 & cut & Eb & A & Ms & _) Po B. unfold approvals_bytes in *. change (S.len l) with (zlen l) in *. rewrite zlen_app, le_length in *. cbn [Z.of_nat Pos.of_succ_nat Pos.succ] in *.
  pose proof (zlen_nonneg l) as Nl.
  assert (Ll : zlen l <= zlen (List.concat (List.map approved_bytes l))).
  { clear. induction l as [|a l IH]; [cbn; lia|]. cbn [List.map List.concat]. rewrite zlen_app, zlen_cons. unfold approved_bytes at 1. rewrite !zlen_app. zn.
    pose proof (zlen_nonneg (p_key a)). pose proof (zlen_nonneg (p_sig a)). lia. }
  assert (X : at_ e o (le 4 (zlen l)) /\ loop (R := unit) (zlen l) (fun _ => read_public_key ;; read_signature ;; ret (Next tt)) tt e (o + 4)
              = (Ret (Next tt), o + 4 + zlen (List.concat (List.map approved_bytes l)))).
  { rewrite loop_iter. unfold zlen at 2. rewrite Nat2Z.id. destruct Ms as [-> | (m & a & s & -> & Ea)].
    - rewrite app_nil_r in Eb. subst b1. apply at_app in A. destruct A as [A1 A2]. rewrite le_length in A2. cbn [Z.of_nat Pos.of_succ_nat Pos.succ] in *.
      split; [exact A1|]. apply approved_all_run; auto.
    - rewrite List.map_app, concat_app in *. cbn [List.map List.concat] in *. rewrite app_nil_r in *. unfold approved_bytes at 2 in Eb. rewrite Ea in Eb.
      rewrite !app_assoc in Eb. apply app_inv_tail in Eb. rewrite <- Eb, <- !app_assoc in A. rewrite List.app_length. cbn [List.length].
      apply at_app in A. destruct A as [A1 A]. rewrite le_length in A. cbn [Z.of_nat Pos.of_succ_nat Pos.succ] in *. split; [exact A1|].
      apply at_app in A. destruct A as [A2 A3]. apply Forall_app in F. destruct F as [Fm Fa]. inversion Fa as [|? ? Fa1 _]; subst. rewrite zlen_app in *.
      rewrite (iter_app _ _ _ _ _ _ _ _ (approved_all_run m e _ W Fm A2)). cbn [iter_loop].
      pose proof (zlen_nonneg (List.concat (List.map approved_bytes m))).
      rewrite (bind_Ret _ _ _ _ _ _ (approved_run a s e _ W Fa1 A3 ltac:(lia) ltac:(lia))). cbv [ret]. apply pair_ret; [reflexivity|lia]. }
  destruct X as [A1 X]. unfold read_txV1_approvals. step (readU32_at _ e _ W A1 ltac:(lia)). step X. cbv [ret]. apply pair_ret; [reflexivity|lia].
Qed.

(** ** The whole *)
Definition sane_of (e : env) (k : numbers) (u : form) : outcome unit := sane_form e (body_at k u) k (f_args u) (f_target u) (f_entry u).
Lemma numbers_body k u : numbers_ok k u -> body_numbers k (f_target u) (f_entry u).
Proof.
  intros N. refine (Build_body_numbers k (f_target u) (f_entry u) (no_args _ _ N) (no_tlen _ _ N) (no_elen _ _ N) (no_slen _ _ N) _ (no_id _ _ N) (no_runtime _ _ N) (no_entry _ _ N) (no_sched _ _ N)).
  pose proof (no_target _ _ N) as T. destruct (f_target u); exact T.
Qed.
Theorem form_run e k u : form_at e k u -> mostly (missing (f_approvals u)) e 0 (form_bytes k u) (zlen (form_bytes k u)) -> zlen (form_bytes k u) < 65536 ->
  follows (sane_of e k u) (parser_read_transactionV1 e 0) (form_obj (expert e) k u) (zlen (form_bytes k u)).
Proof.
  intros X Mo Lb. destruct (header_run e k u X) as [PF Hd]. pose proof X as [W F N A]. pose proof (wf_max e W) as Mx.
  assert (ZH : zlen (f_hash u) = 32) by exact (fo_hash _ F).
  assert (ZF : zlen (form_bytes k u) = tsize (n_top k) + 32 + zlen (form_payload k u) + zlen (approvals_bytes (f_approvals u))).
  { unfold form_bytes. rewrite zlen_under. cbn [top_fields List.concat]. rewrite app_nil_r, !zlen_app. lia. }
  assert (AP : mostly (missing (f_approvals u)) e (tsize (n_top k) + 32 + zlen (form_payload k u)) (approvals_bytes (f_approvals u)) (zlen (form_bytes k u))).
  { destruct Mo as (_ & b1 & cut & Eb & Ab & Mc & Dc). split; [exact ZF|].
    unfold form_bytes, under in Eb. cbn [top_fields List.concat] in Eb. rewrite app_nil_r in Eb.
    assert (Lc : exists b2, approvals_bytes (f_approvals u) = b2 ++ cut).
    { destruct Mc as [-> | (m & a & s & El & Es)]; [exists (approvals_bytes (f_approvals u)); rewrite app_nil_r; reflexivity|].
      unfold approvals_bytes. rewrite El. rewrite List.map_app, concat_app. cbn [List.map List.concat]. rewrite app_nil_r. unfold approved_bytes at 2. rewrite Es.
      eexists. rewrite !app_assoc. reflexivity. }
    destruct Lc as (b2 & Lc). rewrite Lc, !app_assoc in Eb. apply app_inv_tail in Eb. exists b2, cut. split; [exact Lc|].
    rewrite <- Eb in Ab. rewrite <- !app_assoc in Ab. rewrite !at_app in Ab. destruct Ab as (_ & _ & _ & Ab). rewrite ZH, zlen_heading in Ab. fold (tsize (n_top k)) in Ab.
    replace (0 + tsize (n_top k) + 32 + zlen (form_payload k u)) with (tsize (n_top k) + 32 + zlen (form_payload k u)) in Ab by lia.
    split; [exact Ab|]. split; [exact Mc|]. destruct Dc as [Dc|Dc]; [left; exact Dc|right]. rewrite <- Eb in Dc. rewrite !zlen_app, zlen_heading, ZH in Dc. unfold tsize. lia. }
  pose proof (at_bound _ _ _ W A) as B. rewrite !zlen_app, zlen_heading, ZH in B. fold (tsize (n_top k)) in B.
  assert (G1 : 8 <= tsize (n_top k)) by (unfold tsize; pose proof (zlen_nonneg (t_offs (n_top k))); lia).
  assert (G2 : 8 <= tsize (n_payload k)) by (unfold tsize; pose proof (zlen_nonneg (t_offs (n_payload k))); lia).
  destruct (no_top _ _ N) as [Ct St]. destruct (no_payload _ _ N) as [Cp Sp].
  apply at_app in A. destruct A as [A1 A]. rewrite zlen_heading in A. fold (tsize (n_top k)) in A. apply at_app in A. destruct A as [A2 A3]. rewrite ZH in A3. change (0 + tsize (n_top k)) with (tsize (n_top k)) in *.
  unfold form_payload in A3. destruct (at_under _ _ _ _ W A3) as (A4 & A5 & _ & _ & B5). fold (pay_at k) in A5, B5.
  assert (ZP : zlen (form_payload k u) = tsize (n_payload k) + zlen (List.concat (form_fields k u))) by apply zlen_under.
  set (bb := body_bytes k (f_args u) (f_target u) (f_entry u)).
  assert (ZC : pay_at k + zlen (List.concat (form_fields k u)) = body_at k u + zlen bb).
  { unfold form_fields. fold (body_bytes k (f_args u) (f_target u) (f_entry u)). fold bb. cbn [List.concat]. rewrite app_nil_r, !zlen_app, !le_length. unfold body_at, pay_at. cbn [Z.of_nat Pos.of_succ_nat Pos.succ]. lia. }
  assert (AB : at_ e (body_at k u) bb).
  { unfold form_fields in A5. fold (body_bytes k (f_args u) (f_target u) (f_entry u)) in A5. fold bb in A5. cbn [List.concat] in A5. rewrite !at_app in A5. destruct A5 as (_ & _ & _ & _ & _ & A5 & _).
    rewrite !le_length in A5. cbn [Z.of_nat Pos.of_succ_nat Pos.succ] in A5. eapply at_pos; [exact A5|]. unfold body_at, pay_at. lia. }
  pose proof (body_run e _ k _ _ _ W AB (numbers_body _ _ N) (fo_args _ F) (fo_target _ F)) as Bd. fold bb in Bd. fold (sane_of e k u) in Bd.
  assert (P0 : 0 <= pay_at k) by (unfold pay_at; lia). pose proof (zlen_nonneg bb). pose proof (zlen_nonneg (approvals_bytes (f_approvals u))).
  assert (PB : pay_at k <= body_at k u).
  { unfold body_at, pay_at. pose proof (zlen_nonneg (under (n_initiator k) (initiator_fields (f_initiator u)))). pose proof (zlen_nonneg (lv (f_chain u))). pose proof (zlen_nonneg (under (n_price k) (price_fields (f_price u)))). lia. }
  unfold parser_read_transactionV1. rewrite step_ask, step_check by lia.
  step (heading_run _ e 0 W (proj1 Ct) A1). change (0 + tsize (n_top k)) with (tsize (n_top k)).
  change (metadata_size (meta_of (n_top k))) with (tsize (n_top k)). cbn [fields_size meta_of]. rewrite St.
  fold (meta_of (n_top k)). offs Ct. cbn [top_fields offsets nth]. change (@S.len Z) with (@zlen Z).
  rewrite step_field by lia. step (read_hash_at e _ _ W A2 ZH). rewrite ZH, step_field by lia.
  step (heading_run _ e _ W (proj1 Cp) A4). fold (pay_at k). cbn [fields_size]. rewrite PF.
  assert (P5 : foff (meta_of (n_payload k)) 5 = body_at k u - pay_at k).
  { rewrite (starts_off _ _ 5 Cp) by (cbn; lia). cbn [form_fields offsets nth]. change (@S.len Z) with (@zlen Z). rewrite !le_length. unfold body_at, pay_at. lia. }
  assert (Q0 : foff (meta_of (n_payload k)) 0 = 0) by (rewrite (starts_off _ _ 0 Cp) by (cbn; lia); reflexivity).
  rewrite Q0, step_field by lia. step Hd. rewrite P5, step_field by lia.
  unfold follows in *. destruct (sane_of e k u) as [v|c|v].
  - step Bd. cbn [meta_of fields_size]. rewrite Sp. change (@S.len Z) with (@zlen Z). rewrite step_field by lia. rewrite step_field by (unfold pay_at in *; lia).
    replace (body_at k u + zlen bb) with (tsize (n_top k) + 32 + zlen (form_payload k u)) by (unfold pay_at in *; lia).
    step (approvals_run _ e _ _ W (fo_approvals _ F) AP ltac:(pose proof (zlen_nonneg (form_payload k u)); lia) Lb).
    rewrite step_field; [|cbn [top_fields List.concat]; rewrite app_nil_r, !zlen_app; lia|pose proof (zlen_nonneg (form_payload k u)); lia].
    rewrite step_ask. cbv [ret]. reflexivity.
  - destruct Bd as (o' & Bd). exists o'. apply bind_Fail. exact Bd.
  - destruct Bd as (o' & Bd). exists o'. unfold bind. rewrite Bd. reflexivity.
Qed.
