(** Parsing an encoded TransactionV1. *)
From Verif Require Import Base Zxlib Crypto Utils RuntimeArg Deploy DeployUI TxV1 TxV1UI Parser BaseFacts Spec SpecText SpecDeploy SpecTx Exec ArgsFacts ReaderFacts TextFacts Shows.
Import S ST SD SX.

(** * Call tables *)
Fixpoint offs (off : Z) (fs : list (list Z)) : list Z :=
  match fs with [] => [] | f :: r => off :: offs (off + zlen f) r end.
Definition meta (fs : list (list Z)) : metadata :=
  mkMeta (zlen fs) (8 + 6 * zlen fs) (offs 0 fs) (zlen (List.concat fs)).

Lemma zlen_entries fs : forall i off, zlen (entries i off fs) = 6 * zlen fs.
Proof.
  induction fs as [|f r IH]; intros i off; cbn [entries]; [reflexivity|].
  rewrite !zlen_app, !le_length, IH, zlen_cons. lia.
Qed.
Lemma zlen_head fs : zlen (head fs) = 8 + 6 * zlen fs.
Proof. unfold head. rewrite !zlen_app, !le_length, zlen_entries. lia. Qed.
Lemma zlen_table fs : zlen (table fs) = 8 + 6 * zlen fs + zlen (List.concat fs).
Proof. unfold table. rewrite zlen_app, zlen_head. lia. Qed.

Lemma field_offsets_at fs : forall e i off o,
  wf e -> at_ e o (entries i off fs) -> 0 <= i -> i + zlen fs < 65536 ->
  0 <= off -> off + zlen (List.concat fs) < 65536 ->
  read_field_offsets (List.length fs) i e o = (Ret (offs off fs), o + 6 * zlen fs).
Proof.
  induction fs as [|f r IH]; intros e i off o W A Hi Li Ho Lo; cbn [entries List.length read_field_offsets offs].
  - cbv [ret]. apply pair_ret; [reflexivity | cbn; lia].
  - cbn [entries] in A. rewrite !at_app, !le_length in A. destruct A as (A1 & A2 & A3).
    cbn [Z.of_nat Pos.of_succ_nat Pos.succ] in *.
    cbn [List.concat] in Lo. rewrite zlen_app in Lo. rewrite zlen_cons in *.
    pose proof (zlen_nonneg r). pose proof (zlen_nonneg f). pose proof (zlen_nonneg (List.concat r)).
    step (readU16_at i e o W A1 ltac:(lia)). rewrite step_check by lia.
    step (readU32_at off e _ W A2 ltac:(lia)).
    change (S.len f) with (zlen f) in A3.
    step (IH e (i + 1) (off + zlen f) (o + 2 + 4) W A3 ltac:(lia) ltac:(lia) ltac:(lia) ltac:(lia)).
    cbv [ret]. apply pair_ret; [reflexivity | lia].
Qed.

Lemma metadata_at fs e o :
  wf e -> at_ e o (table fs) -> 1 <= zlen fs <= 10 ->
  read_metadata e o = (Ret (meta fs), o + (8 + 6 * zlen fs)).
Proof.
  intros W A L. pose proof (at_bound _ _ _ W A) as B. rewrite zlen_table in B.
  pose proof (zlen_nonneg (List.concat fs)).
  unfold table in A. apply at_app in A; destruct A as [A _]. unfold head in A. rewrite !at_app, !le_length in A.
  destruct A as (A1 & A2 & A3). rewrite zlen_entries in A3. cbn [Z.of_nat Pos.of_succ_nat Pos.succ] in *.
  change (S.len fs) with (zlen fs) in *. change (S.len (List.concat fs)) with (zlen (List.concat fs)) in *.
  unfold read_metadata. rewrite step_ask, step_check by lia. rewrite step_get_off.
  step (readU32_at (zlen fs) e o W A1 ltac:(lia)). rewrite u8_small by lia.
  change MAX_METADATA_FIELDS with 10. rewrite step_check by lia.
  replace (Z.to_nat (zlen fs)) with (List.length fs) by (unfold zlen; lia).
  step (field_offsets_at fs e 0 0 _ W A2 ltac:(lia) ltac:(lia) ltac:(lia) ltac:(lia)).
  step (readU32_at (zlen (List.concat fs)) e _ W A3 ltac:(lia)). rewrite step_get_off.
  cbv [ret]. apply pair_ret; [|lia]. unfold meta. rewrite !u16_small by lia. f_equal. lia.
Qed.

Lemma step_field {B} base fo (k : unit -> P B) e o :
  o = base + fo -> 0 <= o < 65536 -> bind (at_field base fo) k e o = k tt e o.
Proof.
  intros E L. unfold at_field. rewrite bind_assoc, step_get_off, step_check; [reflexivity|].
  rewrite <- E, u32_small by lia. lia.
Qed.
(** the last step of a function *)
Lemma field_at base fo e o : o = base + fo -> 0 <= o < 65536 -> at_field base fo e o = (Ret tt, o).
Proof.
  intros E L. unfold at_field. rewrite step_get_off, <- E, u32_small by lia. rewrite Z.eqb_refl. reflexivity.
Qed.

Ltac foffs := cbn [foff meta field_offsets offs nth metadata_size fields_size num_fields List.concat].
Ltac zl := rewrite ?zlen_app, ?zlen_cons, ?zlen_table, ?zlen_lv, ?le_length; cbn [Z.of_nat Pos.of_succ_nat Pos.succ].
Ltac zls := repeat match goal with
  | |- context [zlen (@nil ?A)] => change (zlen (@nil A)) with 0
  end.
Ltac zcst z := match z with Z0 => idtac | Zpos ?p => is_ground p | Zneg ?p => is_ground p end.
(** evaluate sums and products of numerals *)
Ltac gz := repeat match goal with
  | |- context [Z.add ?a ?b] => zcst a; zcst b; let c := eval vm_compute in (Z.add a b) in change (Z.add a b) with c
  | |- context [Z.mul ?a ?b] => zcst a; zcst b; let c := eval vm_compute in (Z.mul a b) in change (Z.mul a b) with c
  end.
Ltac gzi H := repeat match type of H with
  | context [Z.add ?a ?b] => zcst a; zcst b; let c := eval vm_compute in (Z.add a b) in change (Z.add a b) with c in H
  | context [Z.mul ?a ?b] => zcst a; zcst b; let c := eval vm_compute in (Z.mul a b) in change (Z.mul a b) with c in H
  end.
Ltac zn := rewrite ?zlen_cons in *; change (zlen (@nil (list Z))) with 0 in *; change (zlen (@nil Z)) with 0 in *.

(** * The pieces of a transaction *)
(** [t] is encoded at the start of the buffer. *)
Record tx_at (e : env) (t : transaction) : Prop := {
  xa_wf : wf e;
  xa_good : good_transaction (hash e) t;
  xa_at : at_ e 0 (enc_transaction t) }.

Definition ilen (p : payload) : Z := zlen (init_bytes (x_initiator p)).
Definition clen (p : payload) : Z := zlen (x_chain p).
Definition qlen (p : payload) : Z := zlen (enc_pricing (x_pricing p)).
(** where the body starts: after 102 bytes of tables and hash *)
Definition bpos (p : payload) : Z := 102 + (21 + ilen p) + 8 + 8 + (4 + clen p) + qlen p.

Record pieces (e : env) (t : transaction) : Prop := {
  pc_tab : at_ e 0 (table [x_hash t; enc_payload (x_payload t); enc_approvals (x_approvals t)]);
  pc_hash : at_ e 26 (x_hash t);
  pc_pay : at_ e 58 (enc_payload (x_payload t));
  pc_init : at_ e 102 (enc_initiator (x_initiator (x_payload t)));
  pc_ib : at_ e 123 (init_bytes (x_initiator (x_payload t)));
  pc_time : at_ e (123 + ilen (x_payload t)) (le 8 (x_time (x_payload t)));
  pc_ttl : at_ e (131 + ilen (x_payload t)) (le 8 (x_ttl (x_payload t)));
  pc_chain : at_ e (139 + ilen (x_payload t)) (lv (x_chain (x_payload t)));
  pc_price : at_ e (143 + ilen (x_payload t) + clen (x_payload t)) (enc_pricing (x_pricing (x_payload t)));
  pc_body : at_ e (bpos (x_payload t)) (enc_fields (x_payload t));
  pc_apps : at_ e (bpos (x_payload t) + zlen (enc_fields (x_payload t))) (enc_approvals (x_approvals t));
  pc_plen : zlen (enc_payload (x_payload t)) = bpos (x_payload t) - 58 + zlen (enc_fields (x_payload t));
  pc_hlen : zlen (x_hash t) = 32;
  pc_size : bpos (x_payload t) + zlen (enc_fields (x_payload t)) + zlen (enc_approvals (x_approvals t)) <= blen e;
  pc_max : blen e < 65536 }.

Lemma zlen_initiator a : zlen (enc_initiator a) = 21 + zlen (init_bytes a).
Proof. unfold enc_initiator. rewrite zlen_table. cbn [List.concat]. rewrite zlen_app, app_nil_r, !zlen_cons. change (zlen (@nil (list Z))) with 0. change (zlen (@nil Z)) with 0. lia. Qed.

Lemma zlen_payload p : zlen (enc_payload p) = bpos p - 58 + zlen (enc_fields p).
Proof.
  unfold enc_payload, payload_fields. rewrite zlen_table. cbn [List.concat].
  rewrite !zlen_app, zlen_initiator, zlen_lv, !le_length. rewrite !zlen_cons. change (zlen (@nil (list Z))) with 0. change (zlen (@nil Z)) with 0.
  cbn [Z.of_nat Pos.of_succ_nat Pos.succ]. unfold bpos, ilen, clen, qlen. lia.
Qed.

Lemma pieces_of e t : tx_at e t -> pieces e t.
Proof.
  intros [W G A]. pose proof (at_bound _ _ _ W A) as B. pose proof (wf_max e W) as M.
  pose proof (gt_hlen _ _ G) as HL. change (S.len (x_hash t)) with (zlen (x_hash t)) in HL.
  pose proof A as A0. unfold enc_transaction in A, A0, B. rewrite zlen_table in B.
  unfold table in A. apply at_app in A. destruct A as [_ A]. rewrite zlen_head in A.
  cbn [List.concat] in A, B. rewrite !zlen_app, zlen_payload in B. rewrite !zlen_cons in A, B.
  change (zlen (@nil (list Z))) with 0 in A, B. change (zlen (@nil Z)) with 0 in B.
  cbn [Z.add Z.mul] in A. rewrite !at_app in A. destruct A as (A1 & A2 & A3 & _).
  rewrite HL in A2, A3. replace (0 + (8 + 6 * (1 + (1 + (1 + 0)))) + 32) with 58 in A2, A3 by lia.
  replace (0 + (8 + 6 * (1 + (1 + (1 + 0))))) with 26 in A1 by lia.
  pose proof A2 as A4. unfold enc_payload in A4 at 1. unfold table in A4. apply at_app in A4. destruct A4 as [_ A4].
  rewrite zlen_head in A4. unfold payload_fields in A4 at 2. cbn [List.concat] in A4.
  change (zlen (payload_fields (x_payload t))) with 6 in A4. change (58 + (8 + 6 * 6)) with 102 in A4.
  rewrite !at_app, zlen_initiator, zlen_lv, !le_length in A4. cbn [Z.of_nat Pos.of_succ_nat Pos.succ] in A4.
  fold (ilen (x_payload t)) (clen (x_payload t)) (qlen (x_payload t)) in A4.
  destruct A4 as (B1 & B2 & B3 & B4 & B5 & B6 & _).
  rewrite zlen_payload in A3.
  assert (B7 : at_ e 123 (init_bytes (x_initiator (x_payload t)))).
  { unfold enc_initiator, table in B1. apply at_app in B1. destruct B1 as [_ B1]. rewrite zlen_head, !zlen_cons in B1.
    change (zlen (@nil (list Z))) with 0 in B1. cbn [List.concat] in B1. apply at_app in B1. destruct B1 as [_ B1].
    apply at_app in B1. destruct B1 as [B1 _]. rewrite zlen_cons in B1. change (zlen (@nil Z)) with 0 in B1.
    replace 123 with (102 + (8 + 6 * (1 + (1 + 0))) + (1 + 0)) by lia. exact B1. }
  constructor; auto; try exact A1.
  - replace (123 + ilen (x_payload t)) with (102 + (21 + ilen (x_payload t))) by lia. exact B2.
  - replace (131 + ilen (x_payload t)) with (102 + (21 + ilen (x_payload t)) + 8) by lia. exact B3.
  - replace (139 + ilen (x_payload t)) with (102 + (21 + ilen (x_payload t)) + 8 + 8) by lia. exact B4.
  - replace (143 + ilen (x_payload t) + clen (x_payload t)) with (102 + (21 + ilen (x_payload t)) + 8 + 8 + (4 + clen (x_payload t))) by lia. exact B5.
  - replace (bpos (x_payload t) + zlen (enc_fields (x_payload t))) with (58 + (bpos (x_payload t) - 58 + zlen (enc_fields (x_payload t)))) by lia. exact A3.
  - apply zlen_payload.
  - rewrite HL in B. lia.
Qed.

Definition tmeta_of (t : transaction) : metadata :=
  meta [x_hash t; enc_payload (x_payload t); enc_approvals (x_approvals t)].
Definition pmeta_of (p : payload) : metadata := meta (payload_fields p).

Lemma payload_first_at e t : pieces e t -> payload_first (tmeta_of t) (pmeta_of (x_payload t)) = 102.
Proof.
  intros Pc. pose proof (pc_hlen _ _ Pc) as HL. unfold payload_first, tmeta_of, pmeta_of. unfold payload_fields. foffs.
  rewrite !zlen_cons. change (zlen (@nil (list Z))) with 0. rewrite HL. reflexivity.
Qed.

(** * Header *)
Lemma key_at e o alg key : wf e -> at_ e o (alg :: key) -> (alg = 1 \/ alg = 2) -> zlen key = key_len alg ->
  read_public_key e o = (Ret tt, o + zlen (alg :: key)).
Proof.
  intros W A G L. pose proof (at_bound _ _ _ W A) as B. rewrite zlen_cons in *.
  assert (A0 : at_ e o [alg]) by (apply (proj1 (at_app e o [alg] key)) in A; tauto).
  unfold read_public_key. step (readU8_at _ e _ W A0). rewrite step_check by lia.
  destruct G as [-> | ->]; cbn in L; cbn [Z.eqb Pos.eqb]; unfold advance; rewrite step_get_off; unfold set_off;
    rewrite u16_small by lia; apply pair_ret; auto; lia.
Qed.

Lemma initiator_at e t : tx_at e t ->
  let p := x_payload t in
  read_initiator_address (tmeta_of t) (pmeta_of p) e 102 = (Ret (20, ilen p), 123 + ilen p).
Proof.
  intros X p. pose proof (pieces_of _ _ X) as Pc. destruct X as [W G _].
  pose proof (pc_init _ _ Pc) as A. pose proof (pc_ib _ _ Pc) as AB. fold p in A, AB.
  pose proof (gx_initiator _ (gt_payload _ _ G)) as GI. fold p in GI.
  assert (IL : ilen p = 32 \/ ilen p = 33 \/ ilen p = 34).
  { unfold ilen. destruct (x_initiator p) as [alg key|h]; cbn [good_initiator init_bytes] in *.
    - destruct GI as [GA GK]. change (S.len key) with (zlen key) in GK. rewrite zlen_cons, GK. unfold key_len. destruct GA as [-> | ->]; cbn; lia.
    - change (S.len h) with (zlen h) in GI. lia. }
  unfold read_initiator_address. pose proof A as A'. unfold enc_initiator in A'.
  step (metadata_at _ e _ W A' ltac:(zn; lia)). zn. gz.
  pose proof (payload_first_at _ _ Pc) as PF. fold p in PF. rewrite PF. foffs. zn. gz.
  change (u32 122) with 122. rewrite step_check by reflexivity.
  rewrite step_field by lia.
  assert (AT : at_ e 122 [match x_initiator p with PublicKey _ _ => 0 | AccountHash _ => 1 end]).
  { unfold table in A'. apply at_app in A'. destruct A' as [_ A']. rewrite zlen_head in A'. zn. cbn [List.concat] in A'.
    apply at_app in A'. exact (proj1 A'). }
  step (readU8_at _ e _ W AT).
  rewrite step_check by (destruct (x_initiator p); reflexivity).
  rewrite step_field by lia. rewrite step_get_off. change (122 + 1) with 123.
  assert (RD : (if match x_initiator p with PublicKey _ _ => 0 | AccountHash _ => 1 end =? 0 then read_public_key else read_hash) e 123
               = (Ret tt, 123 + ilen p)).
  { unfold ilen in *. destruct (x_initiator p) as [alg key|h]; cbn [good_initiator init_bytes] in *.
    - cbn [Z.eqb]. apply key_at; tauto.
    - cbn [Z.eqb]. unfold read_hash, advance. rewrite step_get_off. unfold set_off. change (S.len h) with (zlen h) in GI. rewrite GI. reflexivity. }
  step RD. unfold ilen in *.
  rewrite step_field by (rewrite ?zlen_app, ?zlen_cons, ?app_nil_r; change (zlen (@nil Z)) with 0; lia).
  rewrite step_get_off. cbv [ret].
  rewrite u8_small by lia. apply pair_ret; auto. f_equal. lia.
Qed.

Lemma read_hash_at e o h : wf e -> at_ e o h -> zlen h = 32 -> read_hash e o = (Ret tt, o + 32).
Proof.
  intros W A L. pose proof (at_bound _ _ _ W A) as B. unfold read_hash, advance. rewrite step_get_off. unfold set_off.
  rewrite u16_small by lia. reflexivity.
Qed.
Lemma read_bytes_at bs e o : wf e -> at_ e o (lv bs) -> read_bytes e o = (Ret (zlen bs), o + zlen (lv bs)).
Proof.
  intros W H. pose proof (at_bound e o _ W H) as B. rewrite zlen_lv in *. pose proof (zlen_nonneg bs).
  apply at_lv in H; destruct H as [H1 H2]. unfold read_bytes.
  step (readU32_at (zlen bs) e o W H1 ltac:(lia)). rewrite step_get_off, step_ask, step_check by (rewrite u32_small; lia).
  rewrite step_advance by lia. cbv [ret]. pr.
Qed.

Definition price_tag (q : pricing) : Z := match q with Classic _ _ _ => 0 | Fixed _ _ => 1 | Prepaid _ => 2 end.
Definition price_msize (q : pricing) : Z := match q with Classic _ _ _ => 32 | Fixed _ _ => 26 | Prepaid _ => 20 end.
(** the fields of the pricing mode, after its tag *)
Definition price_rest (q : pricing) : list Z :=
  match q with Classic a g s => le 8 a ++ [g] ++ [bool_byte s] | Fixed g f => [g] ++ [f] | Prepaid r => r end.
Lemma zlen_pricing q : good_pricing q -> zlen (enc_pricing q) = price_msize q + 1 + zlen (price_rest q).
Proof.
  intros G. destruct q as [a g s|g f|r]; cbn [enc_pricing price_msize price_rest]; rewrite zlen_table; cbn [List.concat];
    rewrite ?zlen_app, ?le_length; zn; cbn [Z.of_nat Pos.of_succ_nat Pos.succ]; lia.
Qed.
Lemma at_pricing e o q : at_ e o (enc_pricing q) ->
  at_ e (o + price_msize q) [price_tag q] /\ at_ e (o + price_msize q + 1) (price_rest q).
Proof.
  intros A. destruct q as [a g s|g f|r]; cbn [enc_pricing price_msize price_rest price_tag] in *;
    unfold table in A; apply at_app in A; destruct A as [_ A]; rewrite zlen_head in A; zn; cbn [List.concat] in A;
    rewrite ?app_nil_r in A; apply at_app in A; exact A.
Qed.

Lemma pricing_at e t : tx_at e t ->
  let p := x_payload t in
  read_pricing_mode (tmeta_of t) (pmeta_of p) e (143 + ilen p + clen p)
  = (Ret (price_tag (x_pricing p), price_msize (x_pricing p)), bpos p).
Proof.
  intros X p. pose proof (pieces_of _ _ X) as Pc. destruct X as [W G _].
  pose proof (pc_price _ _ Pc) as A. fold p in A. pose proof (gx_pricing _ (gt_payload _ _ G)) as GQ. fold p in GQ.
  pose proof (payload_first_at _ _ Pc) as PF. fold p in PF. pose proof (at_bound _ _ _ W A) as B.
  pose proof (zlen_pricing _ GQ) as ZQ. fold (qlen p) in ZQ, B.
  assert (FO : foff (pmeta_of p) 4 = 41 + ilen p + clen p).
  { unfold pmeta_of, payload_fields. foffs. rewrite zlen_initiator, zlen_lv, !le_length. fold (ilen p) (clen p). lia. }
  pose proof (zlen_nonneg (init_bytes (x_initiator p))) as NI. fold (ilen p) in NI. pose proof (zlen_nonneg (x_chain p)) as NC. fold (clen p) in NC.
  destruct (at_pricing _ _ _ A) as [AT AR].
  assert (BP : bpos p = 143 + ilen p + clen p + qlen p) by (unfold bpos; lia).
  unfold read_pricing_mode. rewrite PF, FO. unfold qlen in *.
  destruct (x_pricing p) as [a g s|g f|r] eqn:EQ; cbn [enc_pricing price_msize price_tag price_rest good_pricing] in *.
  - rewrite !zlen_app, le_length in ZQ. zn. step (metadata_at _ e _ W A ltac:(zn; lia)). foffs. zn. gz.
    rewrite !zlen_app, le_length in *. zn. cbn [Z.of_nat Pos.of_succ_nat Pos.succ] in *. gz.
    rewrite u32_small by lia.
    rewrite step_field by lia. step (readU8_at _ e _ W AT). rewrite step_field by lia. cbn [Z.eqb].
    rewrite !at_app, le_length in AR. cbn [Z.of_nat Pos.of_succ_nat Pos.succ] in AR. destruct AR as (A1 & A2 & A3). zn.
    rewrite !bind_assoc. step (readU64_at _ e _ W A1 ltac:(lia)). rewrite !bind_assoc, step_field by lia.
    rewrite !bind_assoc. step (readU8_at _ e _ W A2). rewrite !bind_assoc, step_field by lia. rewrite !bind_assoc.
    gzi A3. step (readU8_at _ e _ W A3). rewrite step_ret. rewrite step_field by lia. cbv [ret]. apply pair_ret; [reflexivity | lia].
  - rewrite !zlen_app in ZQ. zn. step (metadata_at _ e _ W A ltac:(zn; lia)). foffs. zn. gz.
    rewrite !zlen_app in *. zn. gz.
    rewrite u32_small by lia.
    rewrite step_field by lia. step (readU8_at _ e _ W AT). rewrite step_field by lia. cbn [Z.eqb Pos.eqb].
    rewrite !at_app in AR. destruct AR as (A1 & A2). zn.
    rewrite !bind_assoc. step (readU8_at _ e _ W A1). rewrite !bind_assoc, step_field by lia. rewrite !bind_assoc.
    gzi A2. step (readU8_at _ e _ W A2). rewrite step_ret. rewrite step_field by lia. cbv [ret]. apply pair_ret; [reflexivity | lia].
  - change (S.len r) with (zlen r) in GQ. step (metadata_at _ e _ W A ltac:(zn; lia)). foffs. zn. gz.
    rewrite !zlen_app in *. zn. gz.
    rewrite u32_small by lia.
    rewrite step_field by lia. step (readU8_at _ e _ W AT). rewrite step_field by lia. cbn [Z.eqb Pos.eqb].
    step (read_hash_at _ _ _ W AR GQ). rewrite step_field by lia. cbv [ret]. apply pair_ret; [reflexivity | lia].
Qed.

Definition hdr1 (p : payload) : header_v1 :=
  mkHeaderV1 20 (ilen p) (clen p) (price_tag (x_pricing p)) (price_msize (x_pricing p)).

Lemma header_at e t : tx_at e t ->
  let p := x_payload t in read_txV1_header (tmeta_of t) (pmeta_of p) e 102 = (Ret (hdr1 p), bpos p).
Proof.
  intros X p. pose proof (pieces_of _ _ X) as Pc. pose proof (xa_wf _ _ X) as W. pose proof (gt_payload _ _ (xa_good _ _ X)) as G. fold p in G.
  pose proof (payload_first_at _ _ Pc) as PF. fold p in PF.
  pose proof (pc_size _ _ Pc) as SZ. pose proof (pc_max _ _ Pc) as MX. fold p in SZ.
  pose proof (zlen_nonneg (init_bytes (x_initiator p))) as NI. fold (ilen p) in NI. pose proof (zlen_nonneg (x_chain p)) as NC. fold (clen p) in NC.
  pose proof (zlen_nonneg (enc_fields p)). pose proof (zlen_nonneg (enc_approvals (x_approvals t))).
  pose proof (zlen_nonneg (enc_pricing (x_pricing p))) as NQ. fold (qlen p) in NQ.
  destruct (gx_chain _ G) as [CL _]. change (S.len (x_chain p)) with (clen p) in CL.
  unfold read_txV1_header. rewrite PF. unfold pmeta_of at 1 3 4 5 6 8, payload_fields. foffs.
  rewrite zlen_initiator, zlen_lv, !le_length. fold (ilen p) (clen p) (qlen p). cbn [Z.of_nat Pos.of_succ_nat Pos.succ].
  unfold bpos in SZ.
  rewrite step_field by lia. step (initiator_at e t X). fold p.
  rewrite step_field by lia. step (readU64_at _ e _ W (pc_time _ _ Pc) (gx_time _ G)). fold p.
  replace (123 + ilen p + 8) with (131 + ilen p) by lia.
  rewrite step_field by lia. step (readU64_at _ e _ W (pc_ttl _ _ Pc) (gx_ttl _ G)). fold p.
  replace (131 + ilen p + 8) with (139 + ilen p) by lia.
  rewrite step_field by lia. unfold read_chain_name, read_string. rewrite bind_assoc.
  step (read_bytes_at _ e _ W (pc_chain _ _ Pc)). fold p. fold (clen p). rewrite step_ret, u8_small by lia.
  rewrite zlen_lv. fold (clen p). replace (139 + ilen p + (4 + clen p)) with (143 + ilen p + clen p) by lia.
  rewrite step_field by lia. step (pricing_at e t X). fold p. unfold bpos.
  rewrite step_field by lia. cbv [ret]. apply pair_ret; reflexivity.
Qed.
