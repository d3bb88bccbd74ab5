(** The review of a whole TransactionV1. *)
From Verif Require Import Base Zxlib Crypto Utils RuntimeArg Deploy DeployUI TxV1 TxV1UI Parser BaseFacts Spec SpecText SpecDeploy SpecTx Exec ArgsFacts ReaderFacts TextFacts Shows DeployArgs SessionFacts ReviewFacts TxFacts TxBody TxShow.
Import S ST SD SX.

Lemma all_length {A} (l : list (option A)) : forall r, all l = Some r -> zlen r = zlen l.
Proof.
  induction l as [|x l IH]; intros r H; [apply all_nil in H; subst; reflexivity|].
  apply all_cons in H. destruct H as (a & s & _ & H & ->). rewrite !zlen_cons, (IH _ H). reflexivity.
Qed.

(** * Native operations *)
Lemma op_items e s l n ls v :
  wf e -> Forall arg_ok l -> at_ e s (enc_arg_list l) ->
  op_arity n l = true -> all (op_lines (hash e) (expert e) n l) = Some ls ->
  entry_point_type v = native_tag n -> num_runtime_args (targs v) = zlen l -> runtime_args_offset (targs v) = s ->
  zlen ls = entry_point_items (expert e) (native_tag n) (zlen l) - 1 /\
  forall i l0 o, nth_error ls i = Some l0 -> displays (getItem_args v (Z.of_nat i)) e o l0.
Proof.
  intros W F A N H EP NR RO. pose proof (at_bound _ _ _ W A) as Bd. pose proof (zlen_nonneg (enc_arg_list l)).
  assert (K : forall (f : Z -> P item), (forall i o, getItem_args v (Z.of_nat i) e o = f (Z.of_nat i) e s) -> shown_all f e s ls ->
    forall i l0 o, nth_error ls i = Some l0 -> displays (getItem_args v (Z.of_nat i)) e o l0).
  { intros f Hf Hs i l0 o Hi. unfold displays. rewrite Hf. apply Hs. exact Hi. }
  unfold entry_point_items.
  destruct n; cbn [native_tag] in *;
    cbv [EntryPointCall EntryPointCustom EntryPointTransfer EntryPointAddBid EntryPointWithdrawBid EntryPointDelegate EntryPointUndelegate EntryPointRedelegate EntryPointActivateBid EntryPointChangePublicKey EntryPointAddReservations EntryPointCancelReservations EntryPointBurn];
    cbn [Z.eqb Pos.eqb].
  1: destruct (transfer_items e s l W F A ls N H) as [Z S].
  2: destruct (bid_items e s l W F A ls N H) as [Z S].
  3: destruct (withdraw_items e s l W F A ls N H) as [Z S].
  4: destruct (delegate_items e s l W F A NDelegate ls (or_introl eq_refl) N H) as [Z S].
  5: destruct (delegate_items e s l W F A NUndelegate ls (or_intror eq_refl) N H) as [Z S].
  6: destruct (redelegate_items e s l W F A ls N H) as [Z S].
  7: destruct (activate_items e s l W F A ls N H) as [Z S].
  8: destruct (change_items e s l W F A ls N H) as [Z S].
  9: destruct (reservations_items e s l W F A ls N H) as [Z S].
  10: destruct (cancel_items e s l W F A ls N H) as [Z S].
  11: destruct (burn_items e s l W F A ls N H) as [Z S].
  all: split; [try (destruct (expert e)); lia | refine (K _ _ S)];
    intros i o; unfold getItem_args; rewrite EP, NR, RO, step_set_off by lia;
    cbv [EntryPointCall EntryPointCustom EntryPointTransfer EntryPointAddBid EntryPointWithdrawBid EntryPointDelegate EntryPointUndelegate EntryPointRedelegate EntryPointActivateBid EntryPointChangePublicKey EntryPointAddReservations EntryPointCancelReservations EntryPointBurn];
    cbn [Z.eqb Pos.eqb orb]; reflexivity.
Qed.

(** A shown operation has its mandatory arguments. *)
Lemma any_arg_meets lab name l x : any_arg lab name l = Some x -> meets l (name, false) = true.
Proof. intros H. apply want_inv in H. destruct H as (p & a & v & L & _). unfold meets, find_arg. cbn [fst snd]. rewrite L. reflexivity. Qed.
Lemma u512_meets lab name l x : u512_arg lab name l = Some x -> meets l (name, true) = true.
Proof.
  intros H. apply want_inv in H. destruct H as (p & a & v & L & V & _). apply only_inv in V. destruct V as [T _].
  unfold meets, find_arg. cbn [fst snd]. rewrite L. destruct (a_ty a); try discriminate T. cbn [tag].
  repeat match type of T with context [match ?z with _ => _ end] => destruct z; try discriminate T end. reflexivity.
Qed.
Lemma has_meets name l : has name l = true -> meets l (name, false) = true.
Proof. intros H. destruct (has_inv _ _ H) as (p & a & L). unfold meets, find_arg. cbn [fst snd]. rewrite L. reflexivity. Qed.
Lemma vector_meets H ll lh name l x : all (vector H ll lh name l) = Some x -> meets l (name, false) = true.
Proof. intros Hv. apply vector_inv in Hv. destruct Hv as (p & a & L & _). unfold meets, find_arg. cbn [fst snd]. rewrite L. reflexivity. Qed.

Lemma op_complete H x n l ls : forallb (fun name => has name l) (op_required n) = true ->
  all (op_lines H x n l) = Some ls -> forallb (meets l) (mandatory n) = true.
Proof.
  intros R E.
  assert (G : forall name, any_arg name name l = any_arg name name l) by reflexivity.
  assert (A1 : forall lab name y, any_arg lab name l = Some y -> meets l (name, false) = true) by (intros; eapply any_arg_meets; eauto).
  assert (A2 : forall lab name y, u512_arg lab name l = Some y -> meets l (name, true) = true) by (intros; eapply u512_meets; eauto).
  destruct n; cbn [op_lines mandatory forallb op_required] in *;
    repeat match type of E with context [if ?b then _ else _] => destruct b eqn:? end; cbn [app] in E;
    try (rewrite (vector_meets _ _ _ _ _ _ E); reflexivity);
    try (apply all_cons in E; destruct E as (? & ? & ? & E & ->); rewrite (vector_meets _ _ _ _ _ _ E));
    try all_inv E;
    repeat (apply andb_true_iff in R; let R1 := fresh "R" in destruct R as [R1 R]; try apply has_meets in R1);
    repeat match goal with
           | Q : any_arg _ _ l = Some _ |- _ => apply A1 in Q
           | Q : u512_arg _ _ l = Some _ |- _ => apply A2 in Q
           end;
    repeat match goal with Q : meets l _ = true |- _ => rewrite Q; clear Q end; reflexivity.
Qed.

(** * Custom calls *)
Lemma args_hash_at e p v o :
  wf e -> bpieces e p -> targs v = arg_obj (bpos p + 6) (x_args p) -> apos p < 256 ->
  xdisplays (show_custom_args_hash v) e o (xl "Args hash" (Hex (hash e (arg_bytes (x_args p))))).
Proof.
  intros W Bc T L. pose proof (bc_args _ _ Bc) as A. pose proof (at_bound _ _ _ W A) as B. apply xdisplays_of. unfold show_custom_args_hash. rewrite T.
  rewrite zlen_lv in B. unfold apos in L.
  assert (S : exists i n, (if bytes_repr (arg_obj (bpos p + 6) (x_args p))
      then mem_slice (runtime_args_offset (arg_obj (bpos p + 6) (x_args p))) (runtime_args_len (arg_obj (bpos p + 6) (x_args p)))
      else mem_slice (runtime_args_offset (arg_obj (bpos p + 6) (x_args p)) - 4) (u32 (runtime_args_len (arg_obj (bpos p + 6) (x_args p)) - 1)))
      = mem_slice i n /\ at_ e i (arg_bytes (x_args p)) /\ n = zlen (arg_bytes (x_args p))).
  { destruct (x_args p) as [l|bs] eqn:E; cbn [arg_obj bytes_repr runtime_args_offset runtime_args_len arg_bytes].
    - apply at_lv in A. destruct A as [_ A]. cbn [enc_xargs] in *. apply at_cons in A. destruct A as [_ A]. rewrite zlen_cons in *.
      pose proof (zlen_nonneg (enc_args l)). eexists _, _. split; [reflexivity|]. rewrite u8_small, u32_small by lia.
      split; [|lia]. replace (bpos p + 6 + 9 - 4) with (bpos p + 6 + 4 + 1) by lia. exact A.
    - eexists _, _. split; [reflexivity|]. rewrite u8_small by lia. split; [|reflexivity].
      replace (bpos p + 6 + 9) with (apos p) by (unfold apos; lia). eapply raw_args_at; eauto. }
  destruct S as (i & n & -> & Ai & ->).
  eexists _, o. split.
  - rewrite (step_at _ _ _ _ _ _ Ai) by reflexivity. rewrite step_ask.
    rewrite printBytes_ok; [rewrite step_lift; reflexivity | ..]; try apply (wf_hash e W).
    + apply (wf_hashb e W).
    + rewrite (wf_hash e W). lia.
  - split; reflexivity.
Qed.

Record custom_at (e : env) (p : payload) (v : txv1) (name : list Z) : Prop := {
  ca_wf : wf e; ca_good : good_payload p; ca_bc : bpieces e p; ca_apos : apos p < 256;
  ca_entry : x_entry p = Custom name;
  ca_ep : entry_point_type v = 1; ca_ptr : custom_entry_point v = name_pos (epos p) (x_entry p);
  ca_len : custom_entry_point_len v = name_len (x_entry p);
  ca_t : ttarget v = tgt_obj (tpos p) (x_target p);
  ca_args : targs v = arg_obj (bpos p + 6) (x_args p);
  ca_n : numItems v = u8 (tx_items (expert e) p) }.

Lemma entry_name_at e p v name o : custom_at e p v name ->
  xdisplays (show_text "Entry-point" (custom_entry_point v) (custom_entry_point_len v)) e o (xl "Entry-point" (Text name)).
Proof.
  intros [W G Bc _ E _ P L _ _ _]. rewrite P, L, E. cbn [name_pos name_len].
  pose proof (gx_entry _ G) as GE. rewrite E in GE. cbn [good_entry] in GE.
  pose proof (bc_entry _ _ Bc) as A. rewrite E in A. cbn [enc_entry] in A. apply at_lv in A. destruct A as [_ A].
  enter A. rewrite app_nil_r in A. apply at_app in A. destruct A as [_ A]. apply at_lv in A. destruct A as [_ A]. zn.
  apply vtext_at; auto.
  replace (epos p + 25) with (bpos p + 18 + xlen p + tlen p + 4 + 20 + (1 + 0) + 4) by (unfold epos; lia). exact A.
Qed.

(** where the address or the name of the contract is *)
Lemma id_at e p i r : bpieces e p -> x_target p = XStored i r ->
  match i with
  | ByHash h => at_ e (tpos p + 48) h
  | ByName n => at_ e (tpos p + 52) n
  | ByHashV h _ => at_ e (tpos p + 54) h
  | ByNameV n _ => at_ e (tpos p + 58) n
  end.
Proof.
  intros Bc E. pose proof (bc_target _ _ Bc) as A. rewrite E in A. cbn [enc_xtarget] in A. apply at_lv in A. destruct A as [_ A].
  enter A. rewrite !at_app in A. destruct A as (_ & A & _). zn.
  destruct i as [h|n|h v|n v]; cbn [enc_id] in A; enter A; rewrite ?at_app in A; zn; destruct A as (_ & A & _);
    try (apply at_lv in A; destruct A as [_ A]).
  - replace (tpos p + 48) with (bpos p + 12 + xlen p + 4 + 26 + (1 + 0) + 20 + (1 + 0)) by (unfold tpos; lia). exact A.
  - replace (tpos p + 52) with (bpos p + 12 + xlen p + 4 + 26 + (1 + 0) + 20 + (1 + 0) + 4) by (unfold tpos; lia). exact A.
  - replace (tpos p + 54) with (bpos p + 12 + xlen p + 4 + 26 + (1 + 0) + 26 + (1 + 0)) by (unfold tpos; lia). exact A.
  - replace (tpos p + 58) with (bpos p + 12 + xlen p + 4 + 26 + (1 + 0) + 26 + (1 + 0) + 4) by (unfold tpos; lia). exact A.
Qed.

Lemma execution_ok kind e o : xdisplays (ret (execution kind)) e o (xl "Execution" (Words (text kind))).
Proof. eexists _, o. split; [reflexivity | split; reflexivity]. Qed.
Lemma version_ok n e o : 0 <= n -> xdisplays (ret (mkItem (str "Version") (printUInt n))) e o (xl "Version" (Number n)).
Proof. intros H. eexists _, o. split; [reflexivity | split; [reflexivity|]]. exists (dec n). split; [apply dec_decimal; auto | reflexivity]. Qed.

Lemma custom_items e p v name i r ls :
  custom_at e p v name -> x_target p = XStored i r ->
  custom_review (hash e) (expert e) i name (x_args p) = Some ls ->
  zlen ls = tgt_items (expert e) (x_target p) + 1 /\
  forall k l0 o, nth_error ls k = Some l0 -> xdisplays (getItem_args v (Z.of_nat k)) e o l0.
Proof.
  intros C T R. pose proof (id_at _ _ _ _ (ca_bc _ _ _ _ C) T) as IA.
  pose proof (fun o => entry_name_at e p v name o C) as EN.
  destruct C as [W G Bc L E EP P PL TT TA N]. pose proof (fun o => args_hash_at e p v o W Bc TA L) as AH.
  pose proof (gx_target _ G) as GT. rewrite T in GT. cbn [good_xtarget] in GT. destruct GT as [GI _].
  rewrite T in *. rewrite E in *. cbn [name_pos name_len] in P, PL.
  unfold tx_items in N. rewrite T, E in N. cbn [entry_no] in N. unfold entry_point_items in N.
  cbv [EntryPointTransfer EntryPointCustom] in N. cbn [Z.eqb Pos.eqb] in N.
  pose proof (at_bound _ _ _ W (bc_args _ _ Bc)) as Ba. pose proof (zlen_nonneg (lv (enc_xargs (x_args p)))).
  assert (RO : 0 <= runtime_args_offset (targs v) < 65536).
  { rewrite TA. unfold apos in L. destruct (x_args p); cbn [arg_obj runtime_args_offset]; rewrite u8_small; lia. }
  assert (K : forall num, num = tgt_items (expert e) (XStored i r) + 1 -> 0 <= num < 200 ->
     u32 (numItems v - (if expert e then 9 else 4)) = num).
  { intros num -> Hn. rewrite N. destruct (expert e); rewrite u8_small by lia; rewrite u32_small; lia. }
  assert (GA : forall k o, getItem_args v (Z.of_nat k) e o = getItem_Custom v (Z.of_nat k) e (runtime_args_offset (targs v))).
  { intros k o. unfold getItem_args. rewrite EP, step_set_off by lia. reflexivity. }
  destruct i as [h|n|h ver|n ver]; cbn [custom_review tgt_items good_id] in *.
  - some_inj R. split; [reflexivity|]. change (S.len h) with (zlen h) in GI.
    intros k l0 o Hk. unfold xdisplays. rewrite GA. unfold getItem_Custom. rewrite step_ask, (K 4) by lia. rewrite TT. cbn [tgt_obj ttype tptr].
    cbn [app] in Hk. nth_split Hk; rewrite step_check by reflexivity; ground_eqb.
    + apply execution_ok.
    + apply hash_decimal_at; auto.
    + apply EN.
    + apply AH.
  - some_inj R. split; [reflexivity|].
    intros k l0 o Hk. unfold xdisplays. rewrite GA. unfold getItem_Custom. rewrite step_ask, (K 4) by lia. rewrite TT. cbn [tgt_obj ttype tptr tname_len].
    cbn [app] in Hk. nth_split Hk; rewrite step_check by reflexivity; ground_eqb.
    + apply execution_ok.
    + apply vtext_at; auto.
    + apply EN.
    + apply AH.
  - destruct GI as [GI GV]. change (S.len h) with (zlen h) in GI. unfold ver_item in *. unfold NO_ENTITY_VERSION_PRESENT in *.
    destruct (expert e) eqn:X.
    + destruct ver as [nv|]; [|discriminate R]. cbn [ver_no good_ver] in *.
      destruct (nv =? 2 ^ 32 - 1) eqn:NV; [discriminate R|]. some_inj R.
      replace (nv =? 4294967295) with false in * by (change (2 ^ 32 - 1) with 4294967295 in NV; auto). cbn [negb andb b2z] in *.
      split; [reflexivity|].
      intros k l0 o Hk. unfold xdisplays. rewrite GA. unfold getItem_Custom. rewrite step_ask, X, (K 5) by lia. rewrite TT. cbn [tgt_obj ttype tptr entity_version ver_no].
      cbn [app] in Hk. nth_split Hk; rewrite step_check by reflexivity; ground_eqb.
      * apply execution_ok.
      * apply hash_decimal_at; auto.
      * unfold NO_ENTITY_VERSION_PRESENT. replace (nv =? 4294967295) with false by (change (2 ^ 32 - 1) with 4294967295 in NV; auto). apply version_ok. lia.
      * apply EN.
      * apply AH.
    + rewrite andb_false_r in *. cbn [b2z] in *. some_inj R. split; [reflexivity|].
      intros k l0 o Hk. unfold xdisplays. rewrite GA. unfold getItem_Custom. rewrite step_ask, X, (K 4) by lia. rewrite TT. cbn [tgt_obj ttype tptr entity_version ver_no].
      cbn [app] in Hk. nth_split Hk; rewrite step_check by reflexivity; ground_eqb.
      * apply execution_ok.
      * apply hash_decimal_at; auto.
      * apply EN.
      * apply AH.
  - destruct GI as [GI GV]. unfold ver_item in *. unfold NO_ENTITY_VERSION_PRESENT in *.
    destruct (expert e) eqn:X.
    + destruct ver as [nv|]; [|discriminate R]. cbn [ver_no good_ver] in *.
      destruct (nv =? 2 ^ 32 - 1) eqn:NV; [discriminate R|]. some_inj R.
      replace (nv =? 4294967295) with false in * by (change (2 ^ 32 - 1) with 4294967295 in NV; auto). cbn [negb andb b2z] in *.
      split; [reflexivity|].
      intros k l0 o Hk. unfold xdisplays. rewrite GA. unfold getItem_Custom. rewrite step_ask, X, (K 5) by lia. rewrite TT. cbn [tgt_obj ttype tptr tname_len entity_version ver_no].
      cbn [app] in Hk. nth_split Hk; rewrite step_check by reflexivity; ground_eqb.
      * apply execution_ok.
      * apply vtext_at; auto.
      * unfold NO_ENTITY_VERSION_PRESENT. replace (nv =? 4294967295) with false by (change (2 ^ 32 - 1) with 4294967295 in NV; auto). apply version_ok. lia.
      * apply EN.
      * apply AH.
    + rewrite andb_false_r in *. cbn [b2z] in *. some_inj R. split; [reflexivity|].
      intros k l0 o Hk. unfold xdisplays. rewrite GA. unfold getItem_Custom. rewrite step_ask, X, (K 4) by lia. rewrite TT. cbn [tgt_obj ttype tptr tname_len entity_version ver_no].
      cbn [app] in Hk. nth_split Hk; rewrite step_check by reflexivity; ground_eqb.
      * apply execution_ok.
      * apply vtext_at; auto.
      * apply EN.
      * apply AH.
Qed.

(** * Header items *)
Definition part_pos (p : payload) (q : part_v1) : Z :=
  match q with
  | v1_initiator => 123
  | v1_timestamp => 123 + ilen p
  | v1_ttl => 131 + ilen p
  | v1_chainname => 143 + ilen p
  | v1_payment | v1_receipt => 144 + ilen p + clen p + price_msize (x_pricing p)
  | v1_gasprice => 144 + ilen p + clen p + price_msize (x_pricing p) + (match x_pricing p with Classic _ _ _ => 8 | _ => 0 end)
  end.
Lemma part_at {B} e t q (k : unit -> P B) o : tx_at e t ->
  bind (index_headerpart_txnV1 (tx_obj (expert e) t) q) k e o = k tt e (part_pos (x_payload t) q).
Proof.
  intros X. pose proof (pieces_of _ _ X) as Pc. pose proof (xa_wf _ _ X) as W. pose proof (xa_good _ _ X) as G.
  pose proof (pc_size _ _ Pc) as SZ. pose proof (pc_max _ _ Pc) as MX. pose proof (pc_hlen _ _ Pc) as HL.
  set (p := x_payload t) in *.
  pose proof (zlen_nonneg (init_bytes (x_initiator p))) as NI. fold (ilen p) in NI. pose proof (zlen_nonneg (x_chain p)) as NC. fold (clen p) in NC.
  pose proof (zlen_nonneg (enc_fields p)) as NF. pose proof (zlen_nonneg (enc_approvals (x_approvals t))) as NA.
  pose proof (zlen_pricing _ (gx_pricing _ (gt_payload _ _ G))) as ZQ. fold p in ZQ. fold (qlen p) in ZQ.
  pose proof (zlen_nonneg (price_rest (x_pricing p))) as NQ.
  assert (BP : bpos p = 143 + ilen p + clen p + qlen p) by (unfold bpos; lia).
  assert (MQ : 0 <= price_msize (x_pricing p)) by (destruct (x_pricing p); cbn; lia).
  unfold index_headerpart_txnV1. cbn [theader tx_obj tmeta tpayload_meta]. fold p.
  cbn [initiator_address_metadata_size initiator_address_len chain_name_len pricing_mode pricing_mode_metadata_size hdr1].
  assert (F1 : foff (tmeta_of t) 1 = 32) by (unfold tmeta_of; foffs; lia). rewrite F1.
  change (metadata_size (tmeta_of t)) with 26. change (metadata_size (pmeta_of p)) with 44. change (u16 (26 + 32 + 44 + 20 + 1)) with 123.
  assert (R8 : match x_pricing p with Classic _ _ _ => 9 | _ => 1 end <= zlen (price_rest (x_pricing p))).
  { pose proof (gx_pricing _ (gt_payload _ _ G)) as GQ. fold p in GQ.
    destruct (x_pricing p); cbn [price_rest good_pricing] in *; rewrite ?zlen_app, ?le_length; zn; try (cbn; lia).
    change (S.len receipt) with (zlen receipt) in GQ. lia. }
  rewrite bind_assoc.
  assert (PP : set_off match q with
      | v1_initiator => 123 | v1_timestamp => 123 + ilen p | v1_ttl => 123 + ilen p + 8 | v1_chainname => 123 + ilen p + 8 + 8 + 4
      | v1_gasprice => u16 (123 + ilen p + 8 + 8 + 4 + clen p + price_msize (x_pricing p) + 1) + (if price_tag (x_pricing p) =? PricingModeClassic then 8 else 0)
      | _ => 123 + ilen p + 8 + 8 + 4 + clen p + price_msize (x_pricing p) + 1 end = set_off (part_pos p q) /\ 0 <= part_pos p q <= blen e).
  { destruct q; cbn [part_pos]; rewrite ?u16_small by lia; split; try (f_equal; lia); try lia;
      destruct (x_pricing p); cbn [price_tag]; try lia; change (0 =? PricingModeClassic) with true; change (1 =? PricingModeClassic) with false; change (2 =? PricingModeClassic) with false; cbv iota; try lia; f_equal; lia. }
  destruct PP as [PP PR].
  match goal with |- bind (set_off ?a) _ _ _ = _ => change (set_off a) with (set_off match q with
      | v1_initiator => 123 | v1_timestamp => 123 + ilen p | v1_ttl => 123 + ilen p + 8 | v1_chainname => 123 + ilen p + 8 + 8 + 4
      | v1_gasprice => u16 (123 + ilen p + 8 + 8 + 4 + clen p + price_msize (x_pricing p) + 1) + (if price_tag (x_pricing p) =? PricingModeClassic then 8 else 0)
      | _ => 123 + ilen p + 8 + 8 + 4 + clen p + price_msize (x_pricing p) + 1 end) end.
  rewrite PP, step_set_off by lia. rewrite bind_assoc, step_get_off, bind_assoc, step_ask, step_check by lia. reflexivity.
Qed.

(** Conditions under which the header can be shown in expert mode: the date can
    be written, the time to live is at most 28 days, the payment amount has at
    most 19 digits. *)
Definition xexpert_ok (x : bool) (tf : Z -> option (list Z)) (p : payload) : Prop :=
  x = true -> x_ttl p / 1000 < 29 * 86400 /\ (exists s, tf (x_time p / 1000) = Some s) /\
              match x_pricing p with Classic a _ _ => a < 10 ^ 19 | _ => True end.

(** the lines between the header and the approvals *)
Definition op_or_call (p : payload) : Prop :=
  match x_entry p, x_target p with Op _, Native => True | Custom _, XStored _ _ => True | _, _ => False end.

(** The lines [ls] are those of the body: their number is the one announced,
    and each is displayed. *)
Record shows_body (e : env) (t : transaction) (ls : list xline) : Prop := {
  sb_len : zlen ls = tgt_items (expert e) (x_target (x_payload t)) + entry_point_items (expert e) (entry_no (x_entry (x_payload t))) (zlen (named (x_args (x_payload t)))) - 1;
  sb_acc : acceptable (x_payload t) = true;
  sb_few : tx_items (expert e) (x_payload t) < 20;
  sb_dis : forall k l0 o, nth_error ls k = Some l0 -> xdisplays (getItem_args (tx_obj (expert e) t) (Z.of_nat k)) e o l0 }.

Lemma op_body e t n l ls : tx_at e t -> apos (x_payload t) < 256 ->
  x_entry (x_payload t) = Op n -> tgt_items (expert e) (x_target (x_payload t)) = 0 -> callable (Op n) (x_target (x_payload t)) = true ->
  x_args (x_payload t) = Named l -> op_review (hash e) (expert e) n l = Some ls -> shows_body e t ls.
Proof.
  intros X L EE ET EC0 EA R. pose proof (pieces_of _ _ X) as Pc. pose proof (xa_wf _ _ X) as W. pose proof (xa_good _ _ X) as G.
  pose proof (bpieces_of _ _ (pc_body _ _ Pc)) as Bc. pose proof (gt_payload _ _ G) as GP. set (p := x_payload t) in *.
  pose proof (named_at _ _ W Bc) as NA. pose proof (gx_args _ GP) as GA. apply good_arg_ok in GA.
  rewrite EA in NA, GA. cbn [named] in NA, GA.
  unfold op_review in R. destruct (op_arity n l && _) eqn:EC; [|discriminate R]. apply andb_true_iff in EC. destruct EC as [E1 E2].
  destruct (all (op_lines (hash e) (expert e) n l)) as [rl|] eqn:EO; [|discriminate R]. some_inj R.
  pose proof (at_bound _ _ _ W NA) as BA. pose proof (zlen_nonneg (enc_arg_list l)).
  assert (RO : runtime_args_offset (targs (tx_obj (expert e) t)) = apos p).
  { cbn [tx_obj targs]. fold p. rewrite EA. cbn [arg_obj runtime_args_offset]. unfold apos in *. rewrite u8_small; lia. }
  destruct (op_items e (apos p) l n rl (tx_obj (expert e) t) W GA NA E1 EO) as [Z D]; auto.
  { cbn [tx_obj entry_point_type]. fold p. rewrite EE. reflexivity. }
  { cbn [tx_obj targs]. fold p. rewrite EA. reflexivity. }
  constructor; fold p.
  - rewrite ET, EE, EA. cbn [entry_no named].
    assert (LM : zlen (lift_lines rl) = zlen rl) by (unfold lift_lines, zlen; rewrite map_length; reflexivity). rewrite LM, Z. lia.
  - unfold acceptable. rewrite EE, EA, EC0. cbn [complete named andb]. eapply op_complete; eauto.
  - unfold tx_items. rewrite ET, EE, EA. cbn [entry_no named]. pose proof (all_length _ _ EO) as LL.
    assert (zlen (op_lines (hash e) (expert e) n l) <= 6).
    { unfold op_lines, vector. destruct n; repeat match goal with |- context [if ?b then _ else _] => destruct b end; cbn [app];
        repeat match goal with |- context [match ?x with Some _ => _ | None => _ end] => destruct x end;
        repeat match goal with |- context [if ?b then _ else _] => destruct b end; cbn; lia. }
    destruct (expert e); lia.
  - intros k l0 o Hk. unfold lift_lines in Hk. rewrite nth_error_map in Hk.
    match type of Hk with option_map _ ?r = _ => destruct r as [[lab v]|] eqn:EK end; [|discriminate Hk]. cbn in Hk. injection Hk as <-.
    apply xdisplays_of. apply D. exact EK.
Qed.

Lemma body_lines e t ls : tx_at e t -> apos (x_payload t) < 256 ->
  body_review (hash e) (expert e) (x_payload t) = Some ls -> shows_body e t ls.
Proof.
  intros X L R. pose proof (pieces_of _ _ X) as Pc. pose proof (xa_wf _ _ X) as W. pose proof (xa_good _ _ X) as G.
  pose proof (bpieces_of _ _ (pc_body _ _ Pc)) as Bc. pose proof (gt_payload _ _ G) as GP.
  unfold body_review in R.
  destruct (x_entry (x_payload t)) as [|name|n] eqn:EE; [discriminate R| |].
  - destruct (x_target (x_payload t)) as [|i r|] eqn:ET; try discriminate R. set (p := x_payload t) in *.
    assert (C : custom_at e p (tx_obj (expert e) t) name).
    { constructor; auto; cbn [tx_obj entry_point_type custom_entry_point custom_entry_point_len ttarget targs numItems]; fold p; rewrite ?EE; auto. }
    destruct (custom_items e p _ name i r ls C ET R) as [Z D]. rewrite ET in Z.
    constructor; fold p; rewrite ?EE, ?ET; [| |unfold tx_items; rewrite EE, ET|exact D].
    + rewrite Z. unfold entry_point_items. cbv [EntryPointTransfer EntryPointCustom]. cbn [entry_no Z.eqb Pos.eqb]. lia.
    + unfold acceptable. rewrite EE, ET. reflexivity.
    + unfold entry_point_items. cbv [EntryPointTransfer EntryPointCustom]. cbn [entry_no Z.eqb Pos.eqb tgt_items].
      destruct i; unfold ver_item, b2z; try destruct (_ && _); destruct (expert e); lia.
  - destruct (x_target (x_payload t)) eqn:ET; try discriminate R. destruct (x_args (x_payload t)) as [l|] eqn:EA; [|discriminate R].
    eapply op_body; eauto; rewrite ET; reflexivity.
Qed.

(** Neither native nor module-code transactions are told apart. *)
Lemma bare_lines e t ls : tx_at e t -> apos (x_payload t) < 256 ->
  bare_body (hash e) (expert e) (x_payload t) = Some ls -> shows_body e t ls.
Proof.
  intros X L R. pose proof (pieces_of _ _ X) as Pc. pose proof (xa_wf _ _ X) as W. pose proof (xa_good _ _ X) as G.
  pose proof (bpieces_of _ _ (pc_body _ _ Pc)) as Bc. pose proof (gt_payload _ _ G) as GP.
  unfold bare_body in R.
  assert (NS : tgt_items (expert e) (x_target (x_payload t)) = 0 /\ (forall en, callable en (x_target (x_payload t)) = true) /\
    (ttype (tgt_obj (tpos (x_payload t)) (x_target (x_payload t))) = TargetNative \/ ttype (tgt_obj (tpos (x_payload t)) (x_target (x_payload t))) = TargetSession) /\
    match x_entry (x_payload t) with
    | Call => Some []
    | Custom _ => Some [xl "Args hash" (Hex (hash e (arg_bytes (x_args (x_payload t)))))]
    | Op n => match x_args (x_payload t) with Named l => op_review (hash e) (expert e) n l | Raw _ => None end
    end = Some ls).
  { destruct (x_target (x_payload t)); [|discriminate R|]; (split; [reflexivity|]; split; [intros []; reflexivity|]; split; [auto | exact R]). }
  destruct NS as (T0 & CA & TT & R'). clear R.
  destruct (x_entry (x_payload t)) as [|name|n] eqn:EE.
  - some_inj R'. constructor; rewrite ?T0, ?EE.
    + reflexivity.
    + unfold acceptable. rewrite EE, CA. reflexivity.
    + unfold tx_items. rewrite EE, T0. unfold entry_point_items. cbv [EntryPointTransfer EntryPointCustom EntryPointAddReservations EntryPointCancelReservations EntryPointCall].
      cbn [entry_no Z.eqb Pos.eqb]. destruct (expert e); lia.
    + intros k l0 o Hk. rewrite nth_error_nil in Hk. discriminate Hk.
  - some_inj R'. constructor; rewrite ?T0, ?EE.
    + reflexivity.
    + unfold acceptable. rewrite EE. reflexivity.
    + unfold tx_items. rewrite EE, T0. unfold entry_point_items. cbv [EntryPointTransfer EntryPointCustom].
      cbn [entry_no Z.eqb Pos.eqb]. destruct (expert e); lia.
    + intros k l0 o Hk. destruct k as [|k]; cbn [nth_error] in Hk; [|rewrite nth_error_nil in Hk; discriminate Hk]. injection Hk as <-.
      assert (N1 : numItems (tx_obj (expert e) t) = (if expert e then 9 else 4) + 1).
      { cbn [tx_obj numItems]. unfold tx_items. rewrite EE, T0. unfold entry_point_items. cbv [EntryPointTransfer EntryPointCustom].
        cbn [entry_no Z.eqb Pos.eqb]. destruct (expert e); reflexivity. }
      pose proof (at_bound _ _ _ W (bc_args _ _ Bc)) as Ba. pose proof (zlen_nonneg (lv (enc_xargs (x_args (x_payload t))))).
      assert (RO : 0 <= runtime_args_offset (targs (tx_obj (expert e) t)) < 65536).
      { cbn [tx_obj targs]. unfold apos in L. destruct (x_args (x_payload t)); cbn [arg_obj runtime_args_offset]; rewrite u8_small; lia. }
      unfold xdisplays, getItem_args. rewrite step_set_off by lia.
      replace (entry_point_type (tx_obj (expert e) t) =? EntryPointCustom) with true by (cbn [tx_obj entry_point_type]; rewrite EE; reflexivity).
      unfold getItem_Custom. rewrite step_ask, N1.
      replace (u32 ((if expert e then 9 else 4) + 1 - (if expert e then 9 else 4))) with 1 by (destruct (expert e); reflexivity).
      rewrite step_check by reflexivity. change (ttarget (tx_obj (expert e) t)) with (tgt_obj (tpos (x_payload t)) (x_target (x_payload t))). cbv zeta.
      destruct TT as [-> | ->]; ground_eqb; eapply args_hash_at; eauto.
  - destruct (x_args (x_payload t)) as [l|] eqn:EA; [|discriminate R']. eapply op_body; eauto.
Qed.

Lemma tx_count e t ls : shows_body e t ls ->
  numItems (tx_obj (expert e) t) = zlen (frame (expert e) t ls) /\ zlen (frame (expert e) t ls) = (if expert e then 9 else 4) + zlen ls.
Proof.
  intros [Z _ LT _]. pose proof (zlen_nonneg ls).
  unfold frame. cbn [tx_obj numItems]. unfold tx_items in *.
  assert (ZL : zlen (pricing_lines (x_pricing (x_payload t))) = 2) by (destruct (x_pricing (x_payload t)); reflexivity).
  destruct (expert e); rewrite !zlen_app, ?zlen_cons, ?ZL; repeat match goal with |- context [zlen (@nil ?A)] => change (zlen (@nil A)) with 0 end; rewrite u8_small by lia; split; lia.
Qed.

Lemma part_run e t q o : tx_at e t -> index_headerpart_txnV1 (tx_obj (expert e) t) q e o = (Ret tt, part_pos (x_payload t) q).
Proof.
  intros X. pose proof (part_at e t q (fun _ => ret tt) o X) as E. cbv [bind ret] in E.
  destruct (index_headerpart_txnV1 (tx_obj (expert e) t) q e o) as [[[]|c|u] o']; congruence.
Qed.

Lemma printBytes_shows bs lab e i n o : wf e -> at_ e i bs -> n = zlen bs -> zlen bs <= 49 ->
  displays (bind (parser_printBytes i n) (fun d => ret (mkItem (str lab) d))) e o (text lab, Hex bs).
Proof.
  intros W A N L. eexists _, _. split; [rewrite (bind_Ret _ _ _ _ _ _ (parser_printBytes_at bs e i n o W A N L)); reflexivity | split; reflexivity].
Qed.

Lemma ignoring_ok key (p : P dval) e o d o' l : p e o = (Ret d, o') -> xshows (hash e) (timefmt e) l (mkItem (str key) d) ->
  xdisplays (ignoring_errors key p) e o l.
Proof. intros E S. unfold xdisplays, ignoring_errors. rewrite (step_try_ok _ _ _ _ _ _ E). eexists _, _. split; [reflexivity | exact S]. Qed.

Lemma pricing_items e t i l o : tx_at e t ->
  match x_pricing (x_payload t) with Classic a _ _ => a < 10 ^ 19 | _ => True end ->
  nth_error (pricing_lines (x_pricing (x_payload t))) i = Some l ->
  xdisplays (getItem_pricing_mode (tx_obj (expert e) t) (Z.of_nat i)) e o l.
Proof.
  intros X MX Hi. pose proof (pieces_of _ _ X) as Pc. pose proof (xa_wf _ _ X) as W. pose proof (xa_good _ _ X) as G.
  pose proof (gx_pricing _ (gt_payload _ _ G)) as GQ.
  destruct (at_pricing _ _ _ (pc_price _ _ Pc)) as [AT AR].
  pose proof (fun q o => part_run e t q o X) as PR.
  unfold getItem_pricing_mode, payment_value, gas_value. cbn [tx_obj theader]. set (p := x_payload t) in *. cbn [hdr1 pricing_mode].
  destruct (x_pricing p) as [a g s|g f|r] eqn:EQ; cbn [pricing_lines price_tag price_msize price_rest good_pricing] in *.
  - rewrite !at_app, le_length in AR. cbn [Z.of_nat Pos.of_succ_nat Pos.succ] in AR. destruct AR as (A1 & A2 & _).
    nth_split Hi; try (rewrite nth_error_nil in Hi; discriminate Hi); ground_eqb;
      change (0 =? PricingModeClassic) with true; change (0 =? PricingModePrepaid) with false; cbv iota.
    + eapply ignoring_ok.
      * rewrite (bind_Ret _ _ _ _ _ _ (PR v1_payment o)). cbn [part_pos]. rewrite EQ. cbn [price_msize].
        replace (144 + ilen p + clen p + 32) with (143 + ilen p + clen p + 32 + 1) by lia.
        step (readU64_at _ e _ W A1 ltac:(lia)). unfold uint64_to_str.
        assert (DL : zlen (dec a) <= 19) by (apply (dec_len a 19); [lia | lia | exact MX]).
        replace (zlen (dec a) <? 20) with true by lia. rewrite step_lift. rewrite separators_ok; [reflexivity | exact DL |].
        intros E0. destruct (dec_decimal a ltac:(lia)) as (NN & _). contradiction.
      * split; [reflexivity|]. cbn [snd xrenders ival]. exists (dec a). split; [apply dec_decimal; lia | reflexivity].
    + eapply ignoring_ok.
      * rewrite (bind_Ret _ _ _ _ _ _ (PR v1_gasprice o)). cbn [part_pos]. rewrite EQ. cbn [price_msize].
        replace (144 + ilen p + clen p + 32 + 8) with (143 + ilen p + clen p + 32 + 1 + 8) by lia.
        step (readU8_at _ e _ W A2). reflexivity.
      * split; [reflexivity|]. cbn [snd xl xrenders ival renders]. exists (dec g). split; [apply dec_decimal; lia | reflexivity].
  - apply at_app in AR. destruct AR as [A1 _].
    nth_split Hi; try (rewrite nth_error_nil in Hi; discriminate Hi); ground_eqb;
      change (1 =? PricingModeClassic) with false; change (1 =? PricingModeFixed) with true; change (1 =? PricingModePrepaid) with false; cbv iota.
    + eapply ignoring_ok; [reflexivity | split; reflexivity].
    + eapply ignoring_ok.
      * rewrite (bind_Ret _ _ _ _ _ _ (PR v1_gasprice o)). cbn [part_pos]. rewrite EQ. cbn [price_msize].
        replace (144 + ilen p + clen p + 26 + 0) with (143 + ilen p + clen p + 26 + 1) by lia.
        step (readU8_at _ e _ W A1). reflexivity.
      * split; [reflexivity|]. cbn [snd xl xrenders ival renders]. exists (dec g). split; [apply dec_decimal; lia | reflexivity].
  - change (S.len r) with (zlen r) in GQ.
    nth_split Hi; try (rewrite nth_error_nil in Hi; discriminate Hi); ground_eqb;
      change (2 =? PricingModeClassic) with false; change (2 =? PricingModeFixed) with false; change (2 =? PricingModePrepaid) with true; cbv iota.
    + eapply ignoring_ok; [reflexivity | split; reflexivity].
    + eapply ignoring_ok.
      * rewrite (bind_Ret _ _ _ _ _ _ (PR v1_receipt o)). cbn [part_pos]. rewrite EQ. cbn [price_msize].
        replace (144 + ilen p + clen p + 20) with (143 + ilen p + clen p + 20 + 1) by lia.
        rewrite step_get_off. apply (parser_printBytes_at r); auto; lia.
      * split; reflexivity.
Qed.

Lemma entry_text_eq en : entry_point_to_str (entry_no en) = entry_text en.
Proof. destruct en as [|n|[]]; reflexivity. Qed.

Lemma top_split x t ls : exists r, frame x t ls = top_lines x t ++ r /\ r = ls ++ (if x then [(text "Approvals #", Count (zlen (x_approvals t)))] else []) /\
  List.length (top_lines x t) = (if x then 8 else 4)%nat.
Proof. exists (ls ++ (if x then [(text "Approvals #", Count (zlen (x_approvals t)))] else [])). unfold top_lines, frame. destruct x; [destruct (x_pricing (x_payload t))|]; repeat split; reflexivity. Qed.
(** The lines before the body, whatever the body. *)
Lemma head_lines e t i l o : tx_at e t -> xexpert_ok (expert e) (timefmt e) (x_payload t) ->
  Z.of_nat i < numItems (tx_obj (expert e) t) -> nth_error (top_lines (expert e) t) i = Some l ->
  xdisplays (getItemTxV1 (tx_obj (expert e) t) (Z.of_nat i)) e o l.
Proof.
  intros X EX Li' Hi.
  pose proof (pieces_of _ _ X) as Pc. pose proof (xa_wf _ _ X) as W. pose proof (xa_good _ _ X) as G.
  pose proof (fun B q (k : unit -> P B) o => part_at e t q k o X) as PA.
  pose proof (gt_payload _ _ G) as [Ga Gt Gl Gc Gq _ _ _].
  set (v := tx_obj (expert e) t) in *.
  assert (Hi' : nth_error ([xl "Txn hash" (Hex (x_hash t)); xl "Type" (Words (text (entry_text (x_entry (x_payload t)))));
     xl "Chain ID" (Text (x_chain (x_payload t))); xl "Account" (Hex (init_bytes (x_initiator (x_payload t))))]
     ++ (if expert e then [xl "Timestamp" (Time (x_time (x_payload t) / 1000)); xl "Ttl" (Ttl (x_ttl (x_payload t) / 1000))]
                     ++ pricing_lines (x_pricing (x_payload t)) else [])) i = Some l).
  { rewrite <- Hi. unfold top_lines, frame. destruct (expert e); [destruct (x_pricing (x_payload t))|]; reflexivity. }
  clear Hi. rename Hi' into Hi.
  apply nth_app2 in Hi. destruct Hi as [[L4 Hi]|[L4 Hi]].
  - unfold getItemTxV1, xdisplays. rewrite step_check by exact (proj2 (Z.ltb_lt _ _) Li'). rewrite step_ask.
    nth_split Hi; try (rewrite nth_error_nil in Hi; discriminate Hi); ground_eqb.
    + assert (M0 : metadata_size (tmeta v) + foff (tmeta v) 0 = 26) by (unfold v; cbn [tx_obj tmeta]; unfold tmeta_of; foffs; reflexivity).
      rewrite M0. pose proof (pc_hash _ _ Pc) as A. pose proof (pc_hlen _ _ Pc) as HL. pose proof (at_bound _ _ _ W A).
      rewrite step_set_off by lia. rewrite step_get_off. apply xdisplays_of. apply printBytes_shows; auto; lia.
    + eexists _, _. split; [reflexivity|]. split; [reflexivity|]. unfold v. cbn [tx_obj entry_point_type snd xl xrenders renders ival].
      rewrite entry_text_eq. reflexivity.
    + rewrite PA. cbn [part_pos]. rewrite step_get_off. unfold v. cbn [tx_obj theader hdr1 chain_name_len].
      pose proof (pc_chain _ _ Pc) as A. apply at_lv in A. destruct A as [_ A].
      replace (143 + ilen (x_payload t)) with (139 + ilen (x_payload t) + 4) by lia.
      apply xdisplays_of. apply show_text_at; auto.
    + rewrite PA. cbn [part_pos]. rewrite step_get_off. unfold v. cbn [tx_obj theader hdr1 initiator_address_len].
      pose proof (pc_ib _ _ Pc) as A. apply xdisplays_of. apply printBytes_shows; auto.
      destruct (x_initiator (x_payload t)) as [alg key|h]; cbn [init_bytes good_initiator] in *; rewrite ?zlen_cons;
        repeat match goal with H : context [S.len ?y] |- _ => change (S.len y) with (zlen y) in H end; try lia.
      destruct Ga as [Ga Gk]. rewrite Gk. unfold key_len. destruct (alg =? 2); lia.
  - cbn [List.length] in L4, Hi. destruct (expert e) eqn:EE; [|rewrite nth_error_nil in Hi; discriminate Hi].
    destruct (EX eq_refl) as (ET & [ts ES] & EA).
    unfold getItemTxV1, xdisplays. rewrite step_check by exact (proj2 (Z.ltb_lt _ _) Li'). rewrite step_ask, EE.
    remember (i - 4)%nat as j eqn:Ej. assert (i = 4 + j)%nat as -> by lia. clear Ej.
    destruct j as [|[|j]]; cbn [nth_error app] in Hi.
    -- injection Hi as <-. change (Z.of_nat (4 + 0)) with 4. ground_eqb. rewrite PA. cbn [part_pos]. eexists _, _. split.
       ++ unfold show_timestamp. step (readU64_at _ e _ W (pc_time _ _ Pc) ltac:(lia)). rewrite step_ask, ES. reflexivity.
       ++ split; [reflexivity|]. exists ts; auto.
    -- injection Hi as <-. change (Z.of_nat (4 + 1)) with 5. ground_eqb. rewrite PA. cbn [part_pos].
       pose proof (show_ttl_at _ e _ W (pc_ttl _ _ Pc) Gl) as ST. replace (x_ttl (x_payload t) / 1000 <? 29 * 86400) with true in ST by lia.
       destruct ST as (s & ST & TT). eexists _, _. split; [exact ST|]. split; [reflexivity|]. exists s; auto.
    -- replace (Z.of_nat (4 + Datatypes.S (Datatypes.S j))) with (6 + Z.of_nat j) by lia.
       assert (J2 : Z.of_nat j < 2).
       { pose proof (nth_cases _ _ _ Hi) as Lz. destruct (x_pricing (x_payload t)); cbn in Lz; lia. }
       replace (6 + Z.of_nat j =? 0) with false by lia. replace (6 + Z.of_nat j =? 1) with false by lia.
       replace (6 + Z.of_nat j =? 2) with false by lia. replace (6 + Z.of_nat j =? 3) with false by lia.
       replace (6 + Z.of_nat j =? 4) with false by lia. replace (6 + Z.of_nat j =? 5) with false by lia.
       unfold pricing_mode_items. replace (6 + Z.of_nat j <? 6 + 2) with true by lia. cbn [andb].
       replace (6 + Z.of_nat j - 6) with (Z.of_nat j) by lia. unfold v. rewrite <- EE. apply pricing_items; auto.
Qed.

Lemma tx_lines e t ls i l o : tx_at e t -> shows_body e t ls ->
  xexpert_ok (expert e) (timefmt e) (x_payload t) ->
  nth_error (frame (expert e) t ls) i = Some l ->
  xdisplays (getItemTxV1 (tx_obj (expert e) t) (Z.of_nat i)) e o l.
Proof.
  intros X SB EX Hi. remember (frame (expert e) t ls) as all_lines eqn:RV.
  destruct (tx_count e t ls SB) as [CNT CZ]. rewrite <- RV in CNT, CZ.
  destruct SB as [ZLS _ ZLT BL].
  assert (LS : zlen ls < 20) by (unfold tx_items in ZLT; destruct (expert e); lia). clear ZLS ZLT.
  pose proof (pieces_of _ _ X) as Pc. pose proof (xa_wf _ _ X) as W. pose proof (xa_good _ _ X) as G.
  pose proof (fun B q (k : unit -> P B) o => part_at e t q k o X) as PA.
  pose proof (nth_cases _ _ _ Hi) as Li. pose proof (zlen_nonneg ls) as NL.
  assert (CB : zlen all_lines < 256) by (rewrite <- CNT; cbn [numItems tx_obj]; unfold u8; apply Z.mod_pos_bound; lia).
  assert (Li' : Z.of_nat i < zlen all_lines) by (unfold zlen; lia).
  pose proof (gt_payload _ _ G) as [Ga Gt Gl Gc Gq _ _ _].
  set (v := tx_obj (expert e) t) in *.
  assert (RT : u16 (zlen all_lines - (if expert e then 9 else 2 + pricing_mode_items)) = zlen ls).
  { rewrite CZ. unfold pricing_mode_items. destruct (expert e); rewrite u16_small; lia. }
  (* lines of the body and after, counted from [k] *)
  assert (L2 : forall k, (k = if expert e then 8 else 4)%nat -> (k <= i)%nat ->
       nth_error (ls ++ (if expert e then [(text "Approvals #", Count (zlen (x_approvals t)))] else [])) (i - k) = Some l ->
       xdisplays (getItemTxV1 v (Z.of_nat i)) e o l).
  { intros k Hk Lk Hn. unfold getItemTxV1, xdisplays. rewrite CNT, step_check by lia. rewrite step_ask.
    assert (K4 : 4 <= Z.of_nat i) by (destruct (expert e); lia).
    assert (K8 : expert e = true -> 8 <= Z.of_nat i) by (intros E; rewrite E in Hk; lia).
    replace (Z.of_nat i =? 0) with false by lia. replace (Z.of_nat i =? 1) with false by lia.
    replace (Z.of_nat i =? 2) with false by lia. replace (Z.of_nat i =? 3) with false by lia.
    assert (KX : forall c, c < 8 -> expert e && (Z.of_nat i =? c) = false).
    { intros c Hc. destruct (expert e); [cbn; specialize (K8 eq_refl); lia | reflexivity]. }
    rewrite !KX by lia. cbv zeta. rewrite RT. unfold pricing_mode_items.
    assert (KP : expert e && (Z.of_nat i <? 6 + 2) = false).
    { destruct (expert e); [cbn [andb]; specialize (K8 eq_refl); lia | reflexivity]. }
    rewrite KP.
    assert (KN : (if expert e then Z.of_nat i else u8 (Z.of_nat i + 2 + 2)) = 8 + Z.of_nat (i - k)).
    { destruct (expert e); subst k; [lia|]. rewrite u8_small by lia. lia. }
    rewrite KN. replace (8 <=? 8 + Z.of_nat (i - k)) with true by lia. cbn [andb].
    apply nth_app2 in Hn. destruct Hn as [[Lj Hn]|[Lj Hn]].
    - replace (8 + Z.of_nat (i - k) <? 8 + zlen ls) with true by (unfold zlen; lia).
      replace (8 + Z.of_nat (i - k) - 8) with (Z.of_nat (i - k)) by lia. exact (BL _ _ o Hn).
    - replace (8 + Z.of_nat (i - k) <? 8 + zlen ls) with false by (unfold zlen; lia).
      destruct (expert e) eqn:EE; [|rewrite nth_error_nil in Hn; discriminate Hn].
      replace (8 + zlen ls <=? 8 + Z.of_nat (i - k)) with true by (unfold zlen; lia). cbn [andb].
      assert (i - k - List.length ls = 0)%nat as E by (pose proof (nth_cases _ _ _ Hn) as Lz; cbn in Lz; lia).
      rewrite E in Hn. cbn in Hn. injection Hn as <-.
      eexists _, _. split; [reflexivity|]. split; [reflexivity|]. cbn [snd xrenders ival].
      exists (dec (zlen (x_approvals t))). split; [apply dec_decimal, zlen_nonneg | reflexivity]. }
  subst all_lines. destruct (top_split (expert e) t ls) as (r & E & Er & LT). rewrite E in Hi. apply nth_app2 in Hi. destruct Hi as [[L4 Hi]|[L4 Hi]].
  - apply head_lines; auto. fold v. rewrite CNT. exact Li'.
  - rewrite LT in L4, Hi. subst r. apply (L2 (if expert e then 8 else 4)%nat); auto.
Qed.

Lemma tx_valid e t o : tx_at e t -> exists o', validateTxV1 (tx_obj (expert e) t) e o = (Ret tt, o').
Proof.
  intros X. pose proof (pieces_of _ _ X) as Pc. pose proof (xa_wf _ _ X) as W. pose proof (xa_good _ _ X) as G.
  pose proof (pc_hlen _ _ Pc) as HL. unfold validateTxV1. cbn [tx_obj tmeta tpayload_meta].
  assert (M0 : foff (tmeta_of t) 0 = 0) by (unfold tmeta_of; foffs; reflexivity).
  assert (M1 : foff (tmeta_of t) 1 = 32) by (unfold tmeta_of; foffs; lia).
  rewrite M0, M1. change (metadata_size (tmeta_of t)) with 26. rewrite step_ask.
  rewrite (step_at _ _ _ _ _ _ (pc_pay _ _ Pc)).
  2:{ unfold pmeta_of. unfold enc_payload, table. rewrite zlen_app, zlen_head. reflexivity. }
  rewrite (step_at _ _ _ _ _ _ (pc_hash _ _ Pc)) by lia.
  rewrite (proj2 (list_eqb_eq _ _)) by (symmetry; apply (gt_hash _ _ G)). eexists. reflexivity.
Qed.

Lemma v1_env pf x kl t : (forall y, zlen (p_hash pf y) = 32 /\ bytes (p_hash pf y)) -> good_transaction (p_hash pf) t ->
  tx_at (ctx_of pf x false kl (enc_transaction t) (zlen (enc_transaction t))) t.
Proof.
  intros Hh G. pose proof (gt_size _ _ G) as S. change (S.len (enc_v1 t)) with (zlen (enc_v1 t)) in S. unfold enc_v1 in S. rewrite zlen_cons in S.
  constructor.
  - constructor; cbn [mem blen hash ctx_of]; [reflexivity | lia | exact (gt_bytes _ _ G) | intros y; apply Hh | intros y; apply Hh].
  - exact G.
  - apply slice_Some. exists [], []. rewrite app_nil_r. split; [reflexivity | split; reflexivity].
Qed.

Lemma before_args_eq H t : good_transaction H t -> before_args t = apos (x_payload t).
Proof.
  intros G. pose proof (gt_hlen _ _ G) as HL. unfold before_args, apos, bpos.
  repeat match goal with |- context [S.len ?y] => change (S.len y) with (zlen y) end. change (S.len (x_hash t)) with (zlen (x_hash t)) in HL.
  rewrite !zlen_head, zlen_initiator, zlen_lv, HL. fold (ilen (x_payload t)) (clen (x_payload t)) (qlen (x_payload t)).
  change (zlen (payload_fields (x_payload t))) with 6. change (zlen [x_hash t; enc_payload (x_payload t); enc_approvals (x_approvals t)]) with 3. lia.
Qed.

(** The transaction bytes [data] are accepted, and the review consists of
    exactly the items [lines], in that order. *)
Definition xreviews (pf : platform) (x : bool) (data : list Z) (lines : list xline) : Prop :=
  exists t, tx_parse pf x data = Ret t /\ getNumItems x t = zlen lines /\
    forall i l, nth_error lines i = Some l -> forall kl,
      exists it, tx_getItem pf x kl data t (Z.of_nat i) = Ret it /\ xshows (p_hash pf) (p_time pf) l it.

Lemma xitems_ok e t (lines : list xline) :
  (forall i l o, nth_error lines i = Some l -> xdisplays (getItem t (Z.of_nat i)) e o l) ->
  forall n idx o, (idx + n <= List.length lines)%nat ->
  exists its o', items_from t (Z.of_nat idx) n e o = (Ret its, o').
Proof.
  intros D n. induction n as [|n IH]; intros idx o L; [eexists _, _; reflexivity|].
  cbn [items_from]. destruct (nth_error lines idx) as [l|] eqn:E; [|apply nth_error_None in E; lia].
  destruct (D idx l o E) as (it & o1 & H1 & _). step H1.
  replace (Z.of_nat idx + 1) with (Z.of_nat (Datatypes.S idx)) by lia.
  destruct (IH (Datatypes.S idx) o1 ltac:(lia)) as (its & o2 & H2). step H2. eexists _, _; reflexivity.
Qed.

(** A transaction whose body lines are [ls] is accepted and reviewed. *)
Lemma v1_framed pf x t ls :
  (forall y, zlen (p_hash pf y) = 32 /\ bytes (p_hash pf y)) ->
  good_transaction (p_hash pf) t -> before_args t < 256 ->
  (forall kl, shows_body (ctx_of pf x false kl (enc_transaction t) (zlen (enc_transaction t))) t ls) ->
  xexpert_ok x (p_time pf) (x_payload t) ->
  xreviews pf x (enc_v1 t) (frame x t ls).
Proof.
  intros Hh G L SB EX. rewrite (before_args_eq _ _ G) in L.
  pose proof (gt_size _ _ G) as S. change (S.len (enc_v1 t)) with (zlen (enc_v1 t)) in S. unfold enc_v1 in S. rewrite zlen_cons in S.
  pose proof (zlen_nonneg (enc_transaction t)).
  assert (ZT : u16 (zlen (enc_v1 t)) = 1 + zlen (enc_transaction t)) by (unfold enc_v1; rewrite zlen_cons, u16_small; lia).
  pose proof (v1_env pf x 40 t Hh G) as X0. pose proof (SB 40) as SB0. set (e0 := ctx_of pf x false 40 (enc_transaction t) (zlen (enc_transaction t))) in *.
  assert (NE : 0 < zlen (enc_transaction t)).
  { unfold enc_transaction. rewrite zlen_table. rewrite !zlen_cons. match goal with |- context [8 + 6 * (1 + (1 + (1 + zlen ?n))) + zlen ?m] => pose proof (zlen_nonneg n); pose proof (zlen_nonneg m) end. lia. }
  pose proof (v1_parse e0 t X0) as PR. rewrite (sb_acc _ _ _ SB0) in PR. change (expert e0) with x in PR.
  specialize (PR ltac:(destruct (x_entry (x_payload t)); auto)).
  set (lines := frame x t ls) in *.
  exists (TV1 (tx_obj x t)).
  assert (CN : getNumItems x (TV1 (tx_obj x t)) = zlen lines) by exact (proj1 (tx_count e0 t ls SB0)).
  split; [|split; [exact CN|]].
  - unfold tx_parse. rewrite ZT. replace (1 + zlen (enc_transaction t) =? 0) with false by lia.
    unfold enc_v1. replace (1 + zlen (enc_transaction t) =? 1) with false by lia.
    replace (1 + zlen (enc_transaction t) - 1) with (zlen (enc_transaction t)) by lia. fold e0.
    unfold parse_content. change (1 =? content_Deploy) with false. change (1 =? content_TransactionV1) with true. cbv iota.
    rewrite bind_assoc. step PR. rewrite step_ret. unfold parser_validate. rewrite bind_assoc.
    destruct (tx_valid e0 t (zlen (enc_transaction t)) X0) as (o' & V). change (expert e0) with x in V. step V. rewrite bind_assoc, step_ask.
    change (expert e0) with x. rewrite CN.
    destruct (xitems_ok e0 (TV1 (tx_obj x t)) lines) with (n := Z.to_nat (zlen lines)) (idx := 0%nat) (o := o') as (its & o2 & HI).
    + intros i l o Hi. exact (tx_lines e0 t ls i l o X0 SB0 EX Hi).
    + unfold zlen. lia.
    + change (Z.of_nat 0) with 0 in HI. step HI. reflexivity.
  - intros i l Hi kl. unfold tx_getItem. unfold enc_v1 at 1. cbv iota. rewrite ZT. replace (1 + zlen (enc_transaction t) - 1) with (zlen (enc_transaction t)) by lia.
    pose proof (v1_env pf x kl t Hh G) as X1. pose proof (SB kl) as SB1. set (e1 := ctx_of pf x false kl (enc_transaction t) (zlen (enc_transaction t))) in *.
    destruct (tx_lines e1 t ls i l 0 X1 SB1 EX Hi) as (it & o' & E & SH).
    exists it. cbn [getItem]. change (expert e1) with x in E. rewrite E. split; [reflexivity | exact SH].
Qed.

Lemma v1_review pf x t lines :
  (forall y, zlen (p_hash pf y) = 32 /\ bytes (p_hash pf y)) ->
  good_transaction (p_hash pf) t ->
  review (p_hash pf) x t = Some lines ->
  xexpert_ok x (p_time pf) (x_payload t) ->
  before_args t < 256 ->
  xreviews pf x (enc_v1 t) lines.
Proof.
  intros Hh G RV EX L. unfold review in RV. destruct (body_review (p_hash pf) x (x_payload t)) as [ls|] eqn:R; [|discriminate RV]. some_inj RV.
  apply v1_framed; auto. intros kl. pose proof L as L'. rewrite (before_args_eq _ _ G) in L'.
  exact (body_lines _ t ls (v1_env pf x kl t Hh G) L' R).
Qed.
Lemma v1_bare pf x t lines :
  (forall y, zlen (p_hash pf y) = 32 /\ bytes (p_hash pf y)) ->
  good_transaction (p_hash pf) t ->
  bare_review (p_hash pf) x t = Some lines ->
  xexpert_ok x (p_time pf) (x_payload t) ->
  before_args t < 256 ->
  xreviews pf x (enc_v1 t) lines.
Proof.
  intros Hh G RV EX L. unfold bare_review in RV. destruct (bare_body (p_hash pf) x (x_payload t)) as [ls|] eqn:R; [|discriminate RV]. some_inj RV.
  apply v1_framed; auto. intros kl. pose proof L as L'. rewrite (before_args_eq _ _ G) in L'.
  exact (bare_lines _ t ls (v1_env pf x kl t Hh G) L' R).
Qed.
