(** Delegations with an argument behind the ones the device looks at. *)
From Verif Require Import Base Zxlib Crypto Utils RuntimeArg Deploy DeployUI TxV1 TxV1UI Parser BaseFacts Spec SpecText SpecDeploy SpecRaw SpecBlind SpecVerdict Exec ArgsFacts ReaderFacts TextFacts Shows DeployArgs SessionFacts DelegationFacts StoredFacts ModuleFacts ReviewFacts Demo RawShow BlindReview BlindFacts VerdictFacts.
Import S ST SD SB SY.

(** * An item that fails *)
Lemma any_session_item k e d n tl r ty lines j o :
  frame_at e d n tl -> sess_part k e (hlen d + 32 + plen d) (d_session d) ty lines r -> (j < List.length lines)%nat ->
  getItemDeploy (deploy_obj d r) (Z.of_nat ((if expert e then 9 else 5) + j)) e o
  = session_item (fst r) (snd r) (Z.of_nat j) e (hlen d + 32 + plen d).
Proof.
  intros D SO J. pose proof (any_count _ _ _ n _ _ _ SO) as CNT. set (all_lines := SB.entitled (expert e) d ty n lines) in *.
  pose proof (frame_pieces _ _ _ _ D) as (AH & AX & AB & AP & AS). pose proof (frame_bound _ _ _ _ D) as BB.
  pose proof (fa_wf _ _ _ _ D) as W. pose proof (fa_good _ _ _ _ D) as G.
  pose proof (header_at_ok e _ W (fr_header _ _ G) AH) as HA. destruct HA as [HL HPK HDL HK HT1 HT2 HG HB HD HC HALL HEND].
  fold (hlen d) in HL, HEND.
  pose proof (sp_sum _ _ _ _ _ _ _ SO) as SS. pose proof (sp_few _ _ _ _ _ _ _ SO) as SF. pose proof (zlen_nonneg lines) as SN.
  assert (CNT' : zlen all_lines = if expert e then 10 + zlen lines else 5 + zlen lines).
  { rewrite <- CNT. unfold getNumItemsDeploy, deploy_obj. cbn [Deploy.payment Deploy.session UI_fixed_items UI_runtime_items pay_item].
    pose proof (sp_fixed _ _ _ _ _ _ _ SO). pose proof (sp_runtime _ _ _ _ _ _ _ SO).
    destruct (expert e); rewrite u8_small by lia; lia. }
  set (i := ((if expert e then 9 else 5) + j)%nat).
  assert (ZJ : Z.of_nat j < zlen lines) by (unfold zlen; lia).
  assert (I : Z.of_nat i = (if expert e then 9 else 5) + Z.of_nat j) by (unfold i; destruct (expert e); lia).
  clearbody i all_lines. unfold getItemDeploy. rewrite step_ask, CNT, step_check by (destruct (expert e); lia).
  replace (Z.of_nat i =? 0) with false by (destruct (expert e); lia). replace (Z.of_nat i =? 1) with false by (destruct (expert e); lia).
  replace (Z.of_nat i =? 2) with false by (destruct (expert e); lia). replace (Z.of_nat i =? 3) with false by (destruct (expert e); lia).
  assert (KX : forall c, c < 8 -> expert e && (Z.of_nat i =? c) = false).
  { intros c Hc. destruct (expert e); [cbn; lia | reflexivity]. }
  rewrite !KX by lia.
  assert (KN : u8 (Z.of_nat i - (if expert e then 8 else 4)) = Z.of_nat j + 1).
  { destruct (expert e); rewrite u8_small; lia. }
  rewrite KN. unfold deploy_obj at 1. cbn [dheader]. rewrite HL. rewrite step_set_off by lia.
  cbn [deploy_obj Deploy.payment Deploy.session UI_fixed_items UI_runtime_items pay_item dspecial totalLength entry_point_offset].
  change (u16 (0 + 1)) with 1. rewrite SS, (sp_total _ _ _ _ _ _ _ SO). fold (plen d) (slen d).
  rewrite (u16_small (zlen lines)) by lia.
  replace (Z.of_nat j + 1 <? 1) with false by lia.
  replace (u8 (Z.of_nat j + 1 - 1)) with (Z.of_nat j) by (rewrite u8_small; lia).
  rewrite step_advance by lia.
  replace (Z.of_nat j <? zlen lines) with true by lia. reflexivity.
Qed.
(** The run ends with an error, or is undefined. *)
Definition ends {A} (c : Z + ub) : outcome A := match c with inl x => Fail x | inr u => Undef u end.
Lemma bind_ends {A B} (p : P A) (f : A -> P B) e o c o' : p e o = (ends c, o') -> bind p f e o = (ends c, o').
Proof. unfold bind. intros ->. destruct c; reflexivity. Qed.
Lemma items_fail e t c m :
  (forall i o, (i < m)%nat -> exists it o', getItem t (Z.of_nat i) e o = (Ret it, o')) ->
  (forall o, exists o', getItem t (Z.of_nat m) e o = (ends c, o')) ->
  forall n idx o, (idx <= m)%nat -> (m < idx + n)%nat -> exists o', items_from t (Z.of_nat idx) n e o = (ends c, o').
Proof.
  intros D X n. induction n as [|n IH]; intros idx o L M; [lia|]. cbn [items_from].
  destruct (Nat.eq_dec idx m) as [->|N].
  - destruct (X o) as (o' & E). exists o'. apply bind_ends, E.
  - destruct (D idx o ltac:(lia)) as (it & o1 & E). step E.
    replace (Z.of_nat idx + 1) with (Z.of_nat (Datatypes.S idx)) by lia.
    destruct (IH (Datatypes.S idx) o1 ltac:(lia) ltac:(lia)) as (o2 & E2). exists o2. apply bind_ends, E2.
Qed.
Lemma any_lost pf x d n r ty sl rr m c :
  (forall y, zlen (p_hash pf y) = 32 /\ bytes (p_hash pf y)) ->
  frame (p_hash pf) d -> follows x d n r -> bytes (enc_signed d ++ r) -> zlen (enc_signed d ++ r) < 65535 ->
  (forall e, frame_at e d n r -> expert e = x -> hash e = p_hash pf ->
    let o := hlen d + 32 + plen d in
    sess_part 0 e o (d_session d) ty sl rr /\ (m < List.length sl)%nat /\
    (forall i, (i < m)%nat -> exists v o', session_item (fst rr) (snd rr) (Z.of_nat i) e o = (Ret v, o')) /\
    exists o', session_item (fst rr) (snd rr) (Z.of_nat m) e o = (ends c, o')) ->
  expert_ok x (p_time pf) (d_header d) ->
  tx_parse pf x (0 :: enc_signed d ++ r) = ends c.
Proof.
  intros Hh G F B L SS EX. set (data := enc_signed d ++ r) in *. pose proof (zlen_nonneg data).
  assert (ZT : u16 (zlen (0 :: data)) = 1 + zlen data).
  { rewrite zlen_cons, u16_small; lia. }
  pose proof (frame_env pf x 40 d n r Hh G F B L) as D0. fold data in D0. set (e0 := ctx_of pf x false 40 data (zlen data)) in *.
  destruct (SS e0 D0 eq_refl eq_refl) as (SO & ML & OK & NO). pose proof (any_parse _ e0 d n r ty sl rr D0 SO) as PR.
  assert (NE : 0 < zlen data).
  { pose proof (frame_bound _ _ _ _ D0) as BB. change (blen e0) with (zlen data) in BB. lia. }
  assert (CN : getNumItems x (TDeploy (deploy_obj d rr)) = zlen (SB.entitled x d ty n sl)) by (exact (any_count _ e0 d n rr ty sl SO)).
  unfold tx_parse. rewrite ZT. replace (1 + zlen data =? 0) with false by lia.
  replace (1 + zlen data =? 1) with false by lia.
  replace (1 + zlen data - 1) with (zlen data) by lia. fold e0.
  unfold parse_content. change (0 =? content_Deploy) with true. cbv iota.
  rewrite bind_assoc. step PR. fold (deploy_obj d rr). rewrite step_ret. unfold parser_validate. rewrite bind_assoc.
  destruct (any_valid _ e0 d n r rr ty sl (hlen d + 32 + plen d + slen d) D0 SO) as (o' & V).
  fold (deploy_obj d rr) in V. step V. rewrite bind_assoc, step_ask.
  change (expert e0) with x. rewrite CN.
  assert (LE : List.length (SB.entitled x d ty n sl) = (if x then 10 + List.length sl else 5 + List.length sl)%nat).
  { unfold SB.entitled. destruct x; rewrite !app_length; cbn [List.length]; lia. }
  destruct (items_fail e0 (TDeploy (deploy_obj d rr)) c ((if x then 9 else 5) + m)) with (n := Z.to_nat (zlen (SB.entitled x d ty n sl))) (idx := 0%nat) (o := o') as (o2 & HI).
  - intros i o Hi. cbn [getItem]. destruct (Nat.lt_ge_cases i (if x then 9 else 5)) as [Q|Q].
    + destruct (nth_error (SB.entitled x d ty n sl) i) as [l|] eqn:El.
      * destruct (any_items 0 e0 d n r rr ty sl i l o D0 SO EX) as (it & o1 & E & _); [change (expert e0) with x; lia|exact El|]. eauto.
      * apply nth_error_None in El. destruct x; lia.
    + destruct (OK (i - (if x then 9 else 5))%nat) as (v & o1 & E); [destruct x; lia|].
      pose proof (any_session_item 0 e0 d n r rr ty sl (i - (if x then 9 else 5)) o D0 SO) as Y. change (expert e0) with x in Y.
      replace ((if x then 9 else 5) + (i - (if x then 9 else 5)))%nat with i in Y by (destruct x; lia).
      rewrite Y by (destruct x; lia). eauto.
  - intros o. cbn [getItem]. destruct NO as (o1 & E). exists o1. pose proof (any_session_item 0 e0 d n r rr ty sl m o D0 SO ML) as Y.
    change (expert e0) with x in Y. rewrite Y. exact E.
  - lia.
  - unfold zlen. rewrite Nat2Z.id, LE. destruct x; lia.
  - change (Z.of_nat 0) with 0 in HI. rewrite (bind_ends _ _ _ _ _ _ HI). reflexivity.
Qed.

(** * Delegations *)
Definition op_names (o : operation) : list string :=
  match o with ORedelegate => ["delegator"; "validator"; "new_validator"; "amount"] | _ => ["delegator"; "validator"; "amount"] end%string.
Lemma first_missing l ns : forallb (fun n => has n l) ns = false ->
  exists j nm, nth_error ns j = Some nm /\ has nm l = false /\ forall i nm', (i < j)%nat -> nth_error ns i = Some nm' -> has nm' l = true.
Proof.
  induction ns as [|a ns IH]; [discriminate|]. cbn [forallb]. destruct (has a l) eqn:E.
  - intros Q. destruct (IH Q) as (j & nm & N & M & F). exists (Datatypes.S j), nm. split; [exact N|]. split; [exact M|].
    intros [|i] nm' Li Ni; [injection Ni as <-; exact E|]. eapply F; [|exact Ni]. lia.
  - intros _. exists 0%nat, a. split; [reflexivity|]. split; [exact E|]. intros i nm' Li. lia.
Qed.
(** The types of the arguments of a delegation. *)
Definition op_typed_all (o : operation) (l : list arg) : Prop :=
  typed_if_present is_amount_type "amount" l = true /\ typed_if_present is_key_type "delegator" l = true /\
  typed_if_present is_key_type "validator" l = true /\ (o = ORedelegate -> typed_if_present is_key_type "new_validator" l = true).
Lemma op_item_some op l j e o i nm :
  wf e -> Forall arg_ok l -> at_ e o (enc_arg_list l) -> op_typed_all op l -> sound l -> dspecial j = special_of (Some op) ->
  nth_error (op_names op) i = Some nm -> has nm l = true -> exists v o', op_item j (Z.of_nat i) (zlen l) e o = (Ret v, o').
Proof.
  intros W F A (Ta & Td & Tv & Tn) SO Sp Hi Hn. unfold op_item. rewrite Sp.
  assert (KA : forall lab nm0, has nm0 l = true -> typed_if_present is_key_type nm0 l = true -> valid is_key_type arg_view nm0 l ->
            exists v o', show_arg (str lab) (str nm0) (zlen l) e o = (Ret v, o')).
  { intros lab nm0 H1 H2 H3. destruct (key_present nm0 l lab H1 H2 H3) as [q Q]. unfold key_arg in Q.
    destruct (show_arg_at _ _ _ l q e o W F A Q) as (it & o' & E & _). eauto. }
  assert (AA : has "amount" l = true -> exists v o', show_motes (str "Amount") (str "amount") (zlen l) e o = (Ret v, o')).
  { intros H1. destruct (sound_amount l "Amount" H1 Ta (s_amount _ SO)) as [q Q].
    destruct (show_motes_at _ _ _ l q e o W F A Q) as (it & o' & E & _). eauto. }
  destruct op; cbn [op_names special_of] in *; nth_split Hi; ground_eqb; auto; apply KA; auto; apply SO.
Qed.
Lemma op_item_none op l j e o i nm :
  wf e -> Forall arg_ok l -> at_ e o (enc_arg_list l) -> dspecial j = special_of (Some op) ->
  nth_error (op_names op) i = Some nm -> has nm l = false -> exists o', op_item j (Z.of_nat i) (zlen l) e o = (Fail parser_no_data, o').
Proof.
  intros W F A Sp Hi Hn. unfold op_item. rewrite Sp.
  pose proof (getData_at (text nm) l e o W F A) as GD. unfold has, find_arg in Hn.
  destruct (lookup (text nm) l) as [[p a]|]; [discriminate|].
  destruct op; cbn [op_names special_of] in *; nth_split Hi; ground_eqb; eexists; apply bind_Fail; exact GD.
Qed.

Definition filler : line := ln "" (Words []).
Lemma forallb_names op k : has_delegation_args k && (if is_redelegate (Some op) then has "new_validator" k else true) = forallb (fun n => has n k) (op_names op).
Proof. unfold has_delegation_args. destruct op; cbn [op_names forallb is_redelegate]; destruct (has "amount" k), (has "delegator" k), (has "validator" k), (has "new_validator" k); reflexivity. Qed.
Lemma lost_session e o t ep l op :
  wf e -> good_target t -> Forall arg_ok l -> good_name 99 ep -> at_ e o (enc_session (Stored t ep l)) ->
  plain_types l = true -> stored_op ep l = Some op -> session_refusal (Stored t ep l) = None -> sound l ->
  let k := firstn (Z.to_nat (op_args op)) l in
  let it := stored_item (expert e) (ttype t) ep l (o + 1 + zlen (tbody t) + zlen (lv ep)) (zlen (enc_session (Stored t ep l))) in
  let p := o + 1 + zlen (tbody t) in
  forall j nm, nth_error (op_names op) j = Some nm -> has nm k = false ->
    (forall i nm', (i < j)%nat -> nth_error (op_names op) i = Some nm' -> has nm' k = true) ->
  let m := (Z.to_nat (UI_fixed_items it) + j)%nat in
  let lines := repeat filler (Z.to_nat (UI_fixed_items it) + Z.to_nat (op_args op)) in
  sess_part 0 e o (Stored t ep l) (title (Stored t ep l)) lines (it, p) /\ (m < List.length lines)%nat /\
  (forall i, (i < m)%nat -> exists v o', session_item it p (Z.of_nat i) e o = (Ret v, o')) /\
  exists o', session_item it p (Z.of_nat m) e o = (Fail parser_no_data, o').
Proof.
  intros W GT F EN A PT SO NR SD0 k it p j nm NJ HJ FJ m lines.
  pose proof (at_bound _ _ _ W A) as B.
  assert (ST : stype (Stored t ep l) = ttype t) by (destruct t; reflexivity).
  assert (NM : ttype t <> ModuleBytes) by (destruct t; discriminate).
  assert (HD : has_delegation_args l = true /\ operation_of ep = Some op).
  { unfold stored_op in SO. destruct (has_delegation_args l); [auto|discriminate]. }
  destruct HD as [HD OE].
  assert (HN : op = ORedelegate -> typed_ok is_key_type "new_validator" l).
  { intros ->. assert (Q : ep = text "redelegate") by (apply redelegate_name; rewrite OE; reflexivity).
    cbn [session_refusal] in NR. destruct (list_eq_dec Z.eq_dec ep (text "redelegate")); [|contradiction]. apply heir_none, NR. }
  set (tot := zlen (enc_session (Stored t ep l))) in *.
  pose proof A as A0. cbn [enc_session] in A0. rewrite enc_target_cons in A0. cbn [app] in A0.
  apply at_cons in A0. destruct A0 as [_ A0].
  pose proof A0 as A9. apply at_app in A9. destruct A9 as [_ A9]. fold p in A9.
  assert (CE : check_entrypoint (init_item (ttype t)) e p = (Ret (stored_item (expert e) (ttype t) ep l (p + zlen (lv ep)) 0, zlen l, p), p + zlen (lv ep) + 4)).
  { apply entry_any; auto. intros A3. rewrite OE, delegation_args_op; auto.
    - unfold stored_item, stored_op. rewrite HD, OE. unfold expert_fixed. rewrite andb_true_r. dcbn. destruct op, (expert e), (versioned (ttype t)); reflexivity.
    - dcbn. destruct op; discriminate.
    - intros Q. apply HN. destruct op; [discriminate Q | discriminate Q | reflexivity]. }
  pose proof (stored_parse_any t ep l _ e o W GT F A CE) as PP.
  rewrite app_assoc in A0. apply at_app in A0. destruct A0 as [A1 A2].
  pose proof (at_bound _ _ _ W A1) as B1. pose proof (at_bound _ _ _ W A2) as B2.
  pose proof (zlen_nonneg (tbody t ++ lv ep)). pose proof (zlen_nonneg (enc_args l)).
  assert (IT : it = mkD (ttype t) (special_of (Some op)) false (if expert e then 2 + (if versioned (ttype t) then 1 else 0) else 0) (op_args op) tot (p + zlen (lv ep))).
  { unfold it, stored_item. rewrite SO. reflexivity. }
  assert (NF' : 0 <= UI_fixed_items it <= 3).
  { rewrite IT. dcbn. destruct (expert e), (versioned (ttype t)); lia. }
  assert (RT : UI_runtime_items it = op_args op) by (rewrite IT; reflexivity).
  assert (OA : 3 <= op_args op <= 4) by (destruct op; cbn; lia).
  assert (ON : List.length (op_names op) = Z.to_nat (op_args op)) by (destruct op; reflexivity).
  assert (JN : (j < Z.to_nat (op_args op))%nat) by (rewrite <- ON; apply nth_error_Some; congruence).
  assert (LL : zlen lines = UI_fixed_items it + op_args op) by (unfold lines, zlen; rewrite repeat_length; lia).
  assert (SP : dspecial it = special_of (Some op)) by (rewrite IT; reflexivity).
  assert (IO : itemOffset it = o + 1 + zlen (tbody t ++ lv ep)) by (rewrite IT; dcbn; rewrite zlen_app; unfold p; lia).
  assert (ZK : zlen k = op_args op).
  { assert (op_args op <= zlen l).
    { unfold has_delegation_args in HD. rewrite !andb_true_iff in HD. destruct HD as [[H1 H2] H3].
      pose proof (several (["amount"; "delegator"; "validator"])%string l ltac:(distinct) ltac:(repeat constructor; auto)) as Q. change (zlen (["amount"; "delegator"; "validator"])%string) with 3 in Q.
      destruct op; cbn [op_args]; try lia. destruct (HN eq_refl) as (a & Ea & _).
      assert (H4 : has "new_validator" l = true) by (unfold has; rewrite Ea; reflexivity).
      pose proof (several (["amount"; "delegator"; "validator"; "new_validator"])%string l ltac:(distinct) ltac:(repeat constructor; auto)) as Q'.
      change (zlen (["amount"; "delegator"; "validator"; "new_validator"])%string) with 4 in Q'. lia. }
    unfold k, zlen in *. rewrite firstn_length. lia. }
  rewrite <- IO in A2. destruct (at_args _ _ _ W A2) as (RU & A3 & ZL').
  assert (AK : at_ e (itemOffset it + 4) (enc_arg_list k)).
  { rewrite <- (firstn_skipn (Z.to_nat (op_args op)) l), enc_arg_list_app in A3. apply at_app in A3. apply A3. }
  assert (FK : Forall arg_ok k).
  { rewrite Forall_forall in *. intros a Ia. apply F. rewrite <- (firstn_skipn (Z.to_nat (op_args op)) l). apply in_or_app. left. exact Ia. }
  assert (TK : op_typed_all op k).
  { assert (Y : forall nm0 ok, typed_if_present ok nm0 l = true -> typed_if_present ok nm0 k = true).
    { intros nm0 ok. unfold typed_if_present. destruct (find_arg (text nm0) k) as [a|] eqn:E; [|reflexivity]. apply find_firstn in E. rewrite E. auto. }
    unfold plain_types in PT. rewrite !andb_true_iff in PT. destruct PT as [[T1 T2] T3]. split; [auto|]. split; [auto|]. split; [auto|].
    intros Q. apply Y. destruct (HN Q) as (a & Ea & Ka). unfold typed_if_present. rewrite Ea. exact Ka. }
  assert (RUN : forall i, (i < Z.to_nat (op_args op))%nat ->
     session_item it p (Z.of_nat (Z.to_nat (UI_fixed_items it) + i)) e o = op_item it (Z.of_nat i) (zlen k) e (itemOffset it + 4)).
  { intros i Li. unfold session_item. destruct (sessions_shown it) as [-> ->]; [rewrite SP; apply special_cases|].
    unfold getItem_Delegation. rewrite step_advance by lia.
    replace (Z.of_nat (Z.to_nat (UI_fixed_items it) + i) <? UI_fixed_items it) with false by lia.
    rewrite step_set_off by lia. rewrite u8_small by lia. rewrite step_check by lia.
    assert (DG : dgeneric it = false) by (rewrite IT; reflexivity). rewrite DG.
    assert (DT : dtype it =? ModuleBytes = false) by (rewrite IT; destruct t; reflexivity). rewrite DT.
    rewrite (bind_Ret _ _ _ _ _ _ RU).
    replace (Z.of_nat (Z.to_nat (UI_fixed_items it) + i) - UI_fixed_items it) with (Z.of_nat i) by lia.
    rewrite RT, <- ZK. reflexivity. }
  split; [|split; [|split]].
  - constructor; cbn [fst snd].
    + rewrite ST, PP. apply pair_ret; [|reflexivity]. f_equal. rewrite IT. unfold stored_item. rewrite SO. reflexivity.
    + rewrite IT. reflexivity.
    + lia.
    + lia.
    + lia.
    + lia.
    + intros h py Hp. unfold deploy_type_text. cbn [Deploy.payment Deploy.session]. rewrite Hp.
      unfold title. rewrite PT. unfold type_text. rewrite SO, IT.
      assert (TT : ttype t =? Deploy.Transfer = false) by (destruct t; reflexivity).
      destruct op; dcbn; rewrite TT; reflexivity.
    + intros i l0 Li. lia.
  - unfold m, lines. rewrite repeat_length. lia.
  - intros i Li. destruct (Nat.lt_ge_cases i (Z.to_nat (UI_fixed_items it))) as [Q|Q].
    + unfold session_item. destruct (sessions_shown it) as [-> ->]; [rewrite SP; apply special_cases|].
      unfold getItem_Delegation. rewrite step_advance by lia. replace (Z.of_nat i <? UI_fixed_items it) with true by lia.
      destruct (expert e) eqn:X; [|rewrite IT in Q; cbn in Q; lia].
      destruct (nth_error (target_review true t ++ [ln "Entry-point" (Text ep)]) i) as [ln0|] eqn:El.
      * destruct (fixed_items t ep it e (o + 1) p i ln0 W GT EN A1) as (v & o' & E & _); auto; [rewrite IT; reflexivity|rewrite X; exact El|]. eauto.
      * exfalso. apply nth_error_None in El. rewrite app_length in El. assert (Y : UI_fixed_items it = zlen (target_review true t)).
        { rewrite IT. dcbn. rewrite target_lines. reflexivity. }
        unfold zlen in Y. lia.
    + destruct (nth_error (op_names op) (i - Z.to_nat (UI_fixed_items it))) as [nm'|] eqn:En; [|apply nth_error_None in En; unfold m in Li; lia].
      replace i with (Z.to_nat (UI_fixed_items it) + (i - Z.to_nat (UI_fixed_items it)))%nat by lia. rewrite RUN by (unfold m in Li; lia).
      eapply op_item_some; eauto; [apply sound_first, SD0|]. eapply FJ; [|exact En]. unfold m in Li. lia.
  - unfold m. rewrite RUN by lia. eapply op_item_none; eauto.
Qed.

Lemma lv_same a b : lv a = lv b -> a = b.
Proof. unfold lv. intros Q. apply (f_equal (skipn 4)) in Q. exact Q. Qed.
Lemma lost_early op l : ~ early op l -> exists j nm, let k := firstn (Z.to_nat (op_args op)) l in
  nth_error (op_names op) j = Some nm /\ has nm k = false /\ forall i nm', (i < j)%nat -> nth_error (op_names op) i = Some nm' -> has nm' k = true.
Proof.
  intros NE. apply first_missing. destruct (forallb (fun nm => has nm (firstn (Z.to_nat (op_args op)) l)) (op_names op)) eqn:FB; [|reflexivity].
  exfalso. apply NE. rewrite <- forallb_names in FB. apply andb_true_iff in FB. destruct FB as [F1 F2]. split; [exact F1|]. intros ->. exact F2.
Qed.
Lemma early_dec o l : early o l \/ ~ early o l.
Proof.
  unfold early. cbv zeta. destruct (has_delegation_args (firstn (Z.to_nat (op_args o)) l)); [|right; intros [Q _]; discriminate].
  destruct o; try (left; split; [reflexivity|discriminate]).
  destruct (has "new_validator" (firstn (Z.to_nat (op_args ORedelegate)) l)); [left; auto|right; intros [_ Q]; discriminate (Q eq_refl)].
Qed.
Lemma stored_dec t ep l : gathered (Stored t ep l) \/ ~ gathered (Stored t ep l) /\ exists o, plain_types l = true /\ stored_op ep l = Some o /\ ~ early o l.
Proof.
  cbn [gathered]. destruct (plain_types l); [|left; discriminate]. destruct (stored_op ep l) as [o|]; [|left; discriminate].
  destruct (early_dec o l) as [Q|Q]; [left; intros _ o' E; injection E as <-; exact Q|right; split; [intros Y; apply Q, Y; reflexivity|eauto]].
Qed.

Lemma stored_lost pf x h p t ep l op n r : let i := Stored t ep l in
  hash32 (p_hash pf) -> good_header h -> S.len (p_amount p) <= 64 -> fit i -> SR.trailing x i n r ->
  h_bodyhash h = p_hash pf (enc_payment p ++ enc_session i) -> expert_ok x (p_time pf) h ->
  let data := enc_header h ++ p_hash pf (enc_header h) ++ enc_payment p ++ enc_session i ++ r in
  bytes data -> S.len data < 65535 ->
  session_refusal i = None -> sound l -> plain_types l = true -> stored_op ep l = Some op -> ~ early op l -> tx_parse pf x (0 :: data) = Fail parser_no_data.
Proof.
  intros i Hh G P FI T B X data By L R SO PT OP NE.
  assert (E : data = enc_signed (SR.sealed (p_hash pf) h p i) ++ r).
  { unfold data, enc_signed, SR.sealed, enc_body. cbn [d_header d_hash d_payment d_session]. rewrite <- !app_assoc. reflexivity. }
  rewrite E in *. destruct (lost_early op l NE) as (j & nm & NJ & HJ & FJ).
  set (d := SR.sealed (p_hash pf) h p i) in *.
  assert (FR : frame (p_hash pf) d).
  { constructor; cbn [SR.sealed d d_header d_hash d_payment d_session]; auto. apply Hh. }
  pose proof (fit_args _ FI) as GAr. destruct FI as [_ [GT EN]].
  pose proof (fun e (D : frame_at e d n r) (Xe : expert e = x) =>
    lost_session e (hlen d + 32 + plen d) t ep l op (fa_wf _ _ _ _ D) GT GAr EN
      (proj1 (proj1 (at_app _ _ _ _) (proj2 (proj2 (proj2 (proj2 (frame_pieces _ _ _ _ D))))))) PT OP R SO j nm NJ HJ FJ) as LS.
  eapply (any_lost _ _ _ _ _ _ _ _ _ (inl parser_no_data)); eauto.
  + apply trailing_follows, T.
  + intros e D Xe _. specialize (LS e D Xe). cbv zeta in LS. rewrite Xe in LS. cbv zeta. exact LS.
Qed.
