(** The arguments of an accepted TransactionV1: the mandatory ones, the bytes
    that are hashed. *)
From Verif Require Import Base Zxlib Crypto Utils RuntimeArg Deploy DeployUI TxV1 TxV1UI Parser BaseFacts Spec SpecText SpecDeploy SpecTx SpecLayout SpecRaw SpecForm SpecShow Exec ArgsFacts ReaderFacts TextFacts Demo Shows DeployArgs SessionFacts ReviewFacts TxFacts TxBody TxShow TxReview RangeFacts BindFacts BindCases SafeFacts TxInv RawFacts TxAccept FwdFacts FormFacts FormUnique FormReview FormShow.
Import S ST SD SX SL SR SF SW.

(** ** Two readings of the same place *)
Lemma at_both e o a b : at_ e o a -> at_ e o b -> exists r s, a ++ r = b ++ s.
Proof.
  intros A B. apply slice_Some in A. apply slice_Some in B. destruct A as (p & q & E & L & _), B as (p' & q' & E' & L' & _). rewrite E in E'.
  apply same_n in E'; [|lia]. exists q, q'. apply E'.
Qed.
Lemma copy_same cap e o bs o' nm : wf e -> in16 o -> zlen nm < 2 ^ 32 -> at_ e o (lv nm) -> copy_item_into_charbuffer cap e o = (Ret bs, o') -> bs = nm /\ o' = o + zlen (lv nm) /\ zlen nm <= cap.
Proof.
  intros W I L A H. apply copy_item_inv in H; auto. destruct H as (B & C & ->). destruct (at_both _ _ _ _ A B) as (r & s & E).
  pose proof (at_bound _ _ _ W B) as Bd. rewrite zlen_lv in Bd. pose proof (wf_max e W). unfold in16 in I.
  apply same_lv in E; [|exact L|lia]. destruct E as [-> _]. auto.
Qed.
Lemma type_same it e o r o' ty : wf e -> in16 o -> type_bytes ty -> at_ e o ty -> get_type it e o = (Ret r, o') -> o' = o + zlen ty /\ exists p, ty = fst r :: p.
Proof.
  intros W I T A H. pose proof H as H'. apply type_inv in H; auto. destruct H as (ty' & T' & A' & ->). destruct (at_both _ _ _ _ A A') as (p & q & E).
  apply same_type in E; auto. destruct E as [-> _]. split; [reflexivity|]. apply get_type_inv in H'; auto. destruct H' as [A1 _].
  destruct (at_both _ _ _ _ A' A1) as (p' & q' & E'). inversion T'; subst; cbn [app] in E'; injection E' as -> _; eauto.
Qed.
Lemma name_reads name key : ~ In 0 key -> name_is name key = true <-> reads name key.
Proof.
  intros N. unfold name_is, reads. rewrite list_eqb_eq. split.
  - intros E. split; [exact N|]. apply cstr_split, E.
  - intros [_ [->|(more & ->)]]; [apply cstr_id, N|]. clear - N. induction key as [|c k IH]; [reflexivity|]. cbn [app cstr].
    destruct (c =? 0) eqn:E; [exfalso; apply N; left; lia|]. f_equal. apply IH. intros X. apply N. right. exact X.
Qed.

Lemma getData_raw key e l : wf e -> ~ In 0 key -> Forall readable l -> forall o d o', in16 o -> at_ e o (args_bytes l) ->
  iter_loop (List.length l) (getData_body key) tt e o = (Ret (Done d), o') -> exists r p, first_named key l r /\ r_ty r = snd d :: p.
Proof.
  intros W N F. induction F as [|r l R F IH]; intros o d o' I A H; [discriminate H|].
  cbn [List.length iter_loop] in H. bx H f o1 B. unfold getData_body in B. rewrite args_cons in A. pose proof (at_bound _ _ _ W A) as Bd. rewrite zlen_app in Bd.
  apply at_app in A. destruct A as [A Al]. unfold raw_bytes in A, Bd. rewrite !zlen_app, !zlen_lv in Bd. pose proof (wf_max e W) as MX. unfold in16 in I.
  pose proof (zlen_nonneg (r_name r)). pose proof (zlen_nonneg (r_val r)). pose proof (zlen_nonneg (r_ty r)). pose proof (zlen_nonneg (args_bytes l)).
  apply at_app in A. destruct A as [An A]. apply at_app in A. destruct A as [Av At].
  bx B nm o2 C. apply (copy_same _ _ _ _ _ (r_name r)) in C; [|auto|unfold in16; lia|lia|exact An]. destruct C as (-> & -> & _).
  assert (O3 : forall o3 q, parse_item e (o + zlen (lv (r_name r))) = (Ret q, o3) -> o3 = o + zlen (lv (r_name r)) + zlen (lv (r_val r))).
  { intros o3 q P. apply at_lv in Av. destruct Av as [A1 A2]. rewrite (zlen_lv (r_name r)) in *. eapply parse_item_inv in P; [|auto|unfold in16; lia|exact A1|lia|lia]. rewrite zlen_lv. lia. }
  destruct (name_is (r_name r) key) eqn:E.
  - apply name_reads in E; [|exact N]. bx B ln o3 R1. bx B q o4 G. bx B n o5 Nn. bx B u o6 Ck. bx B u2 o7 Ad. bx B t o8 T. bx B u3 o9 St. apply ret_inv in B. destruct B as [-> ->]. apply ret_inv in H. destruct H as [Ed _]. injection Ed as ->. pinv.
    apply at_lv in Av. destruct Av as [A1 A2].
    rewrite (readU32_at (zlen (r_val r)) e _ W A1 ltac:(lia)) in R1. injection R1 as <- <-. rewrite !zlen_lv in *.
    rewrite u16_small in T by lia. 
    eapply type_same in T; [|auto|unfold in16; lia|exact R|match goal with |- at_ _ ?p _ => match type of At with at_ _ ?q _ => replace p with q by lia; exact At end end].
    destruct T as [_ (p & Ep)]. exists r, p. split; [|exact Ep]. exists [], l. split; [reflexivity|]. split; [exact E|constructor].
  - bx B u o3 P. apply O3 in P. subst o3. bx B t o4 T. apply ret_inv in B. destruct B as [-> ->]. rewrite !zlen_lv in *.
    eapply type_same in T; [|auto|unfold in16; lia|exact R|exact At]. destruct T as [-> _].
    assert (A' : at_ e (o + (4 + zlen (r_name r)) + (4 + zlen (r_val r)) + zlen (r_ty r)) (args_bytes l)).
    { unfold raw_bytes in Al. rewrite !zlen_app, !zlen_lv in Al. match goal with |- at_ _ ?p _ => match type of Al with at_ _ ?q _ => replace p with q by lia; exact Al end end. }
    assert (I' : in16 (o + (4 + zlen (r_name r)) + (4 + zlen (r_val r)) + zlen (r_ty r))) by (unfold in16; lia).
    destruct (IH _ _ _ I' A' H) as (r' & p & (b & a & -> & Rr & Fb) & Ep). exists r', p. split; [|exact Ep].
    exists (r :: b), a. split; [reflexivity|]. split; [exact Rr|]. constructor; [|exact Fb]. intros X. apply name_reads in X; [congruence|exact N].
Qed.
Lemma getData_found key e l o d o' : wf e -> ~ In 0 key -> Forall readable l -> in16 o -> at_ e o (args_bytes l) ->
  getData key (zlen l) e o = (Ret d, o') -> exists r p, first_named key l r /\ r_ty r = snd d :: p.
Proof.
  intros W N F I A H. unfold getData in H. bx H f o1 L. rewrite loop_iter in L. unfold zlen in L. rewrite Nat2Z.id in L.
  destruct f as [s|d0]; [discriminate H|]. apply ret_inv in H. destruct H as [-> _]. eapply getData_raw; eauto.
Qed.
Lemma getData_none key e o d o' : getData key 0 e o = (Ret d, o') -> False.
Proof. unfold getData. intros H. bx H f o1 L. rewrite loop_iter in L. cbn in L. injection L as <- _. discriminate H. Qed.

(** ** The check of the arguments *)
Lemma entry_sane a tt_ e o r o' : read_entry_point a tt_ e o = (Ret r, o') ->
  exists o1 o2, check_sanity_native_transfer a (fst (fst (fst r))) tt_ e o1 = (Ret tt, o2).
Proof.
  unfold read_entry_point. intros E. repeat (apply bind_inv in E; destruct E as (? & ? & ? & E)).
  apply ret_inv in E. destruct E as [-> _]. cbn [fst].
  match goal with X : check_sanity_native_transfer _ _ _ _ _ = (Ret ?u, _) |- _ => destruct u; eauto end.
Qed.
Lemma v1_sane e o v o' : parser_read_transactionV1 e o = (Ret v, o') ->
  exists o1 o2, check_sanity_native_transfer (targs v) (entry_point_type v) (ttype (ttarget v)) e o1 = (Ret tt, o2).
Proof.
  unfold parser_read_transactionV1. intros E. cbv zeta in E. repeat (apply bind_inv in E; destruct E as (? & ? & ? & E)).
  match goal with X : read_txV1_body _ _ = (Ret ?b, _) |- _ => unfold read_txV1_body in X; rename X into X0; rename b into bb end.
  repeat (apply bind_inv in X0; destruct X0 as (? & ? & ? & X0)). apply ret_inv in X0. destruct X0 as [-> _].
  match goal with X : read_entry_point _ _ _ _ = (Ret ?r, _) |- _ => apply entry_sane in X; destruct r as [[[ep p] l] ne] end.
  match goal with X : read_target _ _ = (Ret ?r, _) |- _ => destruct r end.
  apply ret_inv in E. destruct E as [-> _]. cbn [entry_point_type ttarget targs fst snd] in *. assumption.
Qed.
Lemma sane_has a n tt_ e o o' name u : 0 <= runtime_args_offset a < 65536 -> check_sanity_native_transfer a (entry_no (Op n)) tt_ e o = (Ret tt, o') -> In (name, u) (mandatory n) ->
  exists d o2, getData (text name) (num_runtime_args a) e (runtime_args_offset a) = (Ret d, o2) /\ (u = true -> snd d = 8).
Proof.
  intros RO H. unfold check_sanity_native_transfer in H. bx H s o1 G. bx H c o2 Ck. bx H v o3 M. clear H Ck G.
  assert (MH : forall nm q oo vv oo', must_have (runtime_args_offset a) (num_runtime_args a) nm q e oo = (Ret vv, oo') ->
    exists d o2, getData (text nm) (num_runtime_args a) e (runtime_args_offset a) = (Ret d, o2) /\ (q = true -> snd d = 8)).
  { intros nm q oo vv oo' Q. unfold must_have in Q. rewrite step_set_off in Q by lia. bx Q d q2 Gd. exists d, q2. split; [exact Gd|]. intros ->. apply check_inv in Q. destruct Q as [Q _]. unfold TAG_U512 in Q. lia. }
  destruct n; cbn [mandatory entry_no native_tag In] in *;
    cbv [EntryPointTransfer EntryPointAddBid EntryPointWithdrawBid EntryPointDelegate EntryPointUndelegate EntryPointRedelegate EntryPointActivateBid EntryPointChangePublicKey EntryPointAddReservations EntryPointCancelReservations EntryPointBurn] in M;
    cbn [Z.eqb Pos.eqb orb] in M; intros J;
    repeat match goal with X : bind _ _ _ _ = _ |- _ => apply bind_inv in X; destruct X as (? & ? & ? & X) end;
    repeat (destruct J as [J|J]; [injection J as <- <-; eapply MH; eassumption|]); destruct J.
Qed.

(** ** The bytes that are hashed *)
(** Which body line is line [i]. *)
Lemma body_item v e n i o : numItems v = (if expert e then 9 else 4) + n -> 0 <= n < 100 -> 0 <= i < n ->
  getItemTxV1 v ((if expert e then 8 else 4) + i) e o = getItem_args v i e o.
Proof.
  intros CNT N I. assert (RT : u16 ((if expert e then 9 else 4) + n - (if expert e then 9 else 2 + pricing_mode_items)) = n).
  { unfold pricing_mode_items. destruct (expert e); rewrite u16_small; lia. }
  unfold getItemTxV1. rewrite CNT, step_check by (destruct (expert e); lia). rewrite step_ask.
  destruct (expert e); cbn [andb] in *.
  - replace (8 + i =? 0) with false by lia. replace (8 + i =? 1) with false by lia. replace (8 + i =? 2) with false by lia. replace (8 + i =? 3) with false by lia.
    replace (8 + i =? 4) with false by lia. replace (8 + i =? 5) with false by lia. cbv zeta. rewrite RT. unfold pricing_mode_items.
    replace (8 + i <? 6 + 2) with false by lia. replace (8 <=? 8 + i) with true by lia. replace (8 + i <? 8 + n) with true by lia. cbn [andb].
    replace (8 + i - 8) with i by lia. reflexivity.
  - replace (4 + i =? 0) with false by lia. replace (4 + i =? 1) with false by lia. replace (4 + i =? 2) with false by lia. replace (4 + i =? 3) with false by lia.
    cbv zeta. rewrite RT. unfold pricing_mode_items. rewrite u8_small by lia. replace (8 <=? 4 + i + 2 + 2) with true by lia. replace (4 + i + 2 + 2 <? 8 + n) with true by lia. cbn [andb].
    replace (4 + i + 2 + 2 - 8) with i by lia. reflexivity.
Qed.

Lemma slice_here m o n bs : slice m o n = Some bs -> here m o bs /\ zlen bs = n.
Proof. intros H. apply slice_Some in H. destruct H as (p & q & E & L & N). split; [exists p, q; auto|exact N]. Qed.
Lemma version_no_known v : good_ver v -> v <> None /\ v <> Some (2 ^ 32 - 1) -> (ver_no v =? NO_ENTITY_VERSION_PRESENT) = false.
Proof. unfold NO_ENTITY_VERSION_PRESENT. intros G [A B]. destruct v as [n|]; [|contradiction]. cbn [ver_no good_ver] in *. apply Z.eqb_neq. intros ->. apply B. reflexivity. Qed.
Lemma hash_line e k u name it o o' : form_at e k u -> f_entry u = Custom name -> version_known (expert e) (f_target u) ->
  let v := form_obj (expert e) k u in let n := tgt_items (expert e) (f_target u) in
  numItems v = (if expert e then 9 else 4) + (n + 1) /\ 0 <= n < 10 /\
  (getItem_args v n e o = (Ret it, o') -> exists o1 o2, show_custom_args_hash v e o1 = (Ret it, o2)).
Proof.
  intros X E VK v n. pose proof (items_of e k u) as N. fold v n in N. rewrite E in N. unfold entry_point_items in N. cbn [entry_no] in N. cbv [EntryPointTransfer EntryPointCustom] in N. cbn [Z.eqb Pos.eqb] in N.
  pose proof (fo_target _ (fa_form _ _ _ X)) as FT.
  assert (R : 0 <= n <= 4) by (unfold n; destruct (f_target u) as [|[]|]; cbn [tgt_items]; unfold ver_item, b2z; try destruct (_ && _); lia).
  assert (N' : numItems v = (if expert e then 9 else 4) + (n + 1)) by (rewrite N; destruct (expert e); rewrite u8_small; lia).
  split; [exact N'|]. split; [lia|]. intros H. unfold getItem_args in H. bx H q o1 St.
  replace (entry_point_type v =? EntryPointCustom) with true in H by (change (entry_point_type v) with (entry_no (f_entry u)); rewrite E; reflexivity).
  unfold getItem_Custom in H. rewrite step_ask in H. bx H c o2 Ck. clear Ck.
  change (ttarget v) with (target_obj (target_at (body_at k u) (f_args u)) (snd (n_target k)) (n_id k) (f_target u)) in H.
  destruct (f_target u) as [|i r|b r w] eqn:ET; cbn [target_obj] in H; [eauto| |eauto].
  unfold version_known in VK. unfold n in H. destruct i as [h|nm|h ver|nm ver]; cbn [id_obj ttype tgt_items form_target form_id] in *; [eauto|eauto| |]; unfold ver_item in H; cbn [ttype] in H;
    (destruct (expert e); cbn [andb] in H;
     [rewrite (version_no_known ver) in H; [|apply FT|apply VK; reflexivity]; cbn [negb andb b2z] in H; eauto
     |rewrite andb_false_r in H; cbn [b2z] in H; eauto]).
Qed.
Lemma digested_of e k u it o o' : form_at e k u -> args_pos k u < 256 -> show_custom_args_hash (form_obj (expert e) k u) e o = (Ret it, o') ->
  exists bs, digested k u (mem e) bs.
Proof.
  intros X L H. pose proof (fpieces_of _ _ _ X) as Pc. pose proof (fa_wf _ _ _ X) as W. pose proof (fp_args _ _ _ Pc) as A. pose proof (at_bound _ _ _ W A) as B.
  pose proof (zlen_nonneg (argument_bytes (f_args u))). unfold show_custom_args_hash in H.
  change (targs (form_obj (expert e) k u)) with (args_obj (body_at k u + 6) (n_args k) (f_args u)) in H.
  unfold digested, args_pos in *. rewrite (body_before _ _ _ X) in *.
  destruct (f_args u) as [l|b]; [|eauto]. cbn [args_obj bytes_repr runtime_args_offset runtime_args_len] in H. bx H bs o1 S. unfold mem_slice in S.
  rewrite u8_small in S by lia. destruct (slice (mem e) _ _) as [bs'|] eqn:Sl; [|discriminate S]. injection S as <- _. apply slice_here in Sl. destruct Sl as [Hr Lr].
  exists bs'. split; [|exact Lr]. replace (body_at k u + 15 - 4) with (body_at k u + 6 + 9 - 4) by lia. exact Hr.
Qed.

(** ** What follows from acceptance *)
Lemma form_begins pf x data v : hash32 (p_hash pf) -> bytes data -> zlen data < 65472 -> no_leap data -> tx_parse pf x (1 :: data) = Ret (TV1 v) ->
  exists k u, begins data k u /\ f_hash u = p_hash pf (form_payload k u) /\ v = form_obj x k u /\
    exists post, data = (heading (n_top k) ++ f_hash u ++ form_payload k u) ++ post.
Proof.
  intros Hh B L NL H. destruct (form_content _ _ _ _ Hh B L NL H) as (k & u & rest & cut & E & DJ & Zc & Fo & No & HV & Ev & Ed).
  exists k, u. split; [|auto]. split; [exact Fo|]. split; [exact No|]. exists rest, cut. auto.
Qed.
Lemma same_at k u k' u' : same_form k u k' u' -> args_pos k u = args_pos k' u'.
Proof. intros [E1 E2 E3 E4 E5 E6 _ _ _ _ (T1 & T2 & T3 & T4) _ _]. unfold args_pos, before_body. rewrite E1, E2, E5, E6, T1, T2, T3, T4. reflexivity. Qed.
Lemma same_digested k u k' u' data bs : same_form k u k' u' -> digested k u data bs -> digested k' u' data bs.
Proof. intros S. pose proof (same_at _ _ _ _ S) as P. unfold digested. rewrite <- P, <- (sf_arguments _ _ _ _ S), <- (proj1 (sf_sections _ _ _ _ S)). auto. Qed.
Lemma same_depicts k u k' u' data t : same_form k u k' u' -> depicts k u data t -> depicts k' u' data t.
Proof.
  intros S D. pose proof (fun bs => same_digested k u k' u' data bs S) as SG. destruct S, D. constructor; try congruence.
  - rewrite <- sf_entry0, <- sf_arguments0. destruct (f_entry u); auto. destruct de_args0 as (bs & Eb & Dg). eauto.
Qed.
Lemma same_sym k u k' u' : same_form k u k' u' -> same_form k' u' k u.
Proof.
  intros S. pose proof (sf_inner _ _ _ _ S) as I. pose proof (sf_target _ _ _ _ S) as T. destruct S. constructor; try (symmetry; assumption).
  - repeat split; symmetry; tauto.
  - repeat split; symmetry; tauto.
  - rewrite <- T. destruct (f_target u); auto. split; symmetry; apply I.
Qed.

(** The review of the parts. *)
Lemma begins_review pf x data v k u t lines : hash32 (p_hash pf) -> bytes data -> zlen data < 65472 -> no_leap data ->
  tx_parse pf x (1 :: data) = Ret (TV1 v) -> begins data k u -> depicts k u data t -> presentable t ->
  review (p_hash pf) x t = Some lines \/ bare_review (p_hash pf) x t = Some lines ->
  xexpert_ok x (p_time pf) (x_payload t) -> args_pos k u < 256 -> xreviews pf x (1 :: data) lines.
Proof.
  intros Hh B L NL H Bg D P R X A. destruct (form_review _ _ _ _ Hh B L NL H) as (k' & u' & rest & cut & E & DJ & Zc & Fo & No & HV & Rv).
  assert (Bg' : begins data k' u') by (split; [exact Fo|]; split; [exact No|]; eauto).
  pose proof (form_unique data k u k' u' ltac:(lia) Bg Bg') as S. apply (Rv t lines); auto; [eapply same_depicts; eauto|rewrite <- (same_at _ _ _ _ S); exact A].
Qed.
Lemma text_no_nul_mandatory n name b : In (name, b) (mandatory n) -> ~ In 0 (text name).
Proof.
  intros H. assert (F : forallb (fun p => negb (existsb (Z.eqb 0) (text (fst p)))) (mandatory n) = true) by (destruct n; vm_compute; reflexivity).
  rewrite forallb_forall in F. specialize (F _ H). cbn [fst] in F. intros I. apply negb_true_iff in F. assert (existsb (Z.eqb 0) (text name) = true); [|congruence].
  apply existsb_exists. exists 0. auto.
Qed.
Lemma begins_mandatory pf x data v k u n : hash32 (p_hash pf) -> bytes data -> zlen data < 65472 -> no_leap data ->
  tx_parse pf x (1 :: data) = Ret (TV1 v) -> begins data k u -> f_entry u = Op n ->
  exists l, f_args u = ANamed l /\ (args_pos k u < 256 ->
    forall name u512, In (name, u512) (mandatory n) -> exists r, first_named (text name) l r /\ (u512 = true -> r_ty r = [8])).
Proof.
  intros Hh B L NL H Bg En. destruct (form_begins _ _ _ _ Hh B L NL H) as (k' & u' & Bg' & _ & Ev & post & Ed).
  pose proof (form_unique data k u k' u' ltac:(lia) Bg Bg') as S. pose proof (sf_entry _ _ _ _ S) as Ee. rewrite En in Ee. rewrite (sf_arguments _ _ _ _ S), (same_at _ _ _ _ S). clear S Bg En k u.
  rename k' into k. rename u' into u. destruct Bg' as (Fo & No & _).
  destruct (accept_inv pf x 1 data (TV1 v) ltac:(lia) H) as (_ & o1 & o2 & its & o3 & q & C & _ & _).
  set (e := ctx_of pf x false 40 data (zlen data)) in *. apply content_v1 in C. destruct C as [_ C]. apply v1_sane in C. destruct C as (p1 & p2 & C).
  pose proof (form_env pf x 40 data k u post Hh B L Fo No Ed) as FA. fold e in FA. pose proof (fa_wf _ _ _ FA) as W.
  rewrite Ev in C. change (targs (form_obj x k u)) with (args_obj (body_at k u + 6) (n_args k) (f_args u)) in C. change (entry_point_type (form_obj x k u)) with (entry_no (f_entry u)) in C. rewrite <- Ee in C.
  assert (RO : 0 <= runtime_args_offset (args_obj (body_at k u + 6) (n_args k) (f_args u)) < 65536).
  { assert (0 <= u8 (body_at k u + 6 + 9) < 256) by (unfold u8; apply Z.mod_pos_bound; lia). destruct (f_args u); cbn [args_obj runtime_args_offset]; lia. }
  pose proof (fun name b => sane_has _ n _ e p1 p2 name b RO C) as M.
  pose proof (fp_args _ _ _ (fpieces_of _ _ _ FA)) as A. pose proof (at_bound _ _ _ W A) as Bd. pose proof (zlen_nonneg (argument_bytes (f_args u))). pose proof (wf_max e W).
  destruct (f_args u) as [l|b] eqn:Ea; cbn [args_obj num_runtime_args runtime_args_offset] in M.
  2:{ exfalso. assert (ME : exists name b, In (name, b) (mandatory n)) by (destruct n; cbn [mandatory]; do 2 eexists; left; reflexivity).
      destruct ME as (name & b0 & I). destruct (M _ _ I) as (d & o4 & Gd & _). eapply getData_none; eauto. }
  exists l. split; [reflexivity|]. intros LA name b I. destruct (M _ _ I) as (d & o4 & Gd & T8).
  unfold args_pos in LA. rewrite (body_before _ _ _ FA) in LA. rewrite u8_small in Gd by lia.
  cbn [argument_bytes] in A. apply at_cons in A. destruct A as [_ A]. apply at_app in A. destruct A as [_ A]. rewrite le_length in A. cbn [Z.of_nat Pos.of_succ_nat Pos.succ] in A.
  pose proof (fo_args _ Fo) as FF. rewrite Ea in FF. cbn [form_args] in FF.
  eapply getData_found in Gd; [|exact W|eapply text_no_nul_mandatory; eauto|exact FF|unfold in16; lia|replace (body_at k u + 6 + 9) with (body_at k u + 10 + 1 + 4) by lia; exact A].
  destruct Gd as (r & p & Fn & Ty). exists r. split; [exact Fn|]. intros Eb. specialize (T8 Eb). rewrite T8 in Ty. destruct Fn as (b1 & a1 & -> & _). rewrite Forall_app in FF. destruct FF as [_ FF]. inversion FF as [|? ? Rr _]; subst.
  unfold readable in Rr. rewrite Ty in Rr |- *. inversion Rr as [? ? Fl|]; subst. inversion Fl; subst; try reflexivity; unfold simple, component in *; lia.
Qed.
Lemma raw_list l : Forall readable l -> bytes (args_bytes l) -> Forall (fun r => ~ odd_type (r_ty r)) l -> exists q, l = List.map raw_of q.
Proof.
  intros F. induction F as [|r l R F IH]; intros B O; [exists []; reflexivity|]. rewrite args_cons in B. apply bytes_app1 in B. destruct B as [Br Bl]. inversion O; subst.
  unfold raw_bytes in Br. apply bytes_app1 in Br. destruct Br as [_ Br]. apply bytes_app1 in Br. destruct Br as [_ Bt].
  destruct (IH Bl ltac:(assumption)) as (q & ->). destruct (type_classes _ Bt R) as [(t & St & E)|X]; [|contradiction].
  exists (S.Arg (r_name r) (r_val r) t :: q). cbn [List.map]. f_equal. unfold raw_of. cbn [a_name a_val a_ty]. rewrite <- E. destruct r; reflexivity.
Qed.
Lemma begins_digested pf x data v k u name : hash32 (p_hash pf) -> bytes data -> zlen data < 65472 -> no_leap data ->
  tx_parse pf x (1 :: data) = Ret (TV1 v) -> begins data k u -> f_entry u = Custom name -> args_pos k u < 256 -> version_known x (f_target u) ->
  exists bs, digested k u data bs.
Proof.
  intros Hh B L NL H Bg En LA VK. destruct (form_begins _ _ _ _ Hh B L NL H) as (k' & u' & Bg' & _ & Ev & post & Ed).
  pose proof (form_unique data k' u' k u ltac:(lia) Bg' Bg) as S. rewrite <- (same_at _ _ _ _ S) in LA. rewrite <- (sf_target _ _ _ _ S) in VK. rewrite <- (sf_entry _ _ _ _ S) in En.
  enough (X : exists bs, digested k' u' data bs) by (destruct X as (bs & X); exists bs; eapply same_digested; eauto).
  clear S Bg k u. rename k' into k. rename u' into u. destruct Bg' as (Fo & No & _).
  destruct (accept_inv pf x 1 data (TV1 v) ltac:(lia) H) as (_ & o1 & o2 & its & o3 & q & _ & _ & It).
  pose proof (form_env pf x 40 data k u post Hh B L Fo No Ed) as FA. set (e := ctx_of pf x false 40 data (zlen data)) in *.
  destruct (items_nth _ _ _ _ _ _ _ It) as [_ K]. cbn [getNumItems] in K. change x with (expert e) in Ev, VK.
  destruct (hash_line e k u name (mkItem [] (VDirect [])) 0 0 FA En VK) as (N & R & _). rewrite <- Ev in N.
  destruct (K (Z.to_nat ((if expert e then 8 else 4) + tgt_items (expert e) (f_target u)))) as (it & p1 & p2 & _ & G).
  { rewrite N. destruct (expert e); lia. }
  cbn [getItem] in G. rewrite Z.add_0_l, Z2Nat.id in G by (destruct (expert e); lia).
  rewrite (body_item v e (tgt_items (expert e) (f_target u) + 1)) in G by (try exact N; lia).
  destruct (hash_line e k u name it p1 p2 FA En VK) as (_ & _ & Q). rewrite Ev in G. destruct (Q G) as (r1 & r2 & Sh).
  eapply (digested_of e); eauto.
Qed.
Lemma args_in data k u l : bytes data -> begins data k u -> f_args u = ANamed l -> bytes (args_bytes l).
Proof.
  intros B Bg E. destruct (begins_core _ _ _ Bg) as (m & Ed). rewrite Ed in B. unfold core, form_payload, under, form_fields, section in B. rewrite E in B. cbn [List.concat argument_bytes] in B.
  repeat match goal with H : bytes (_ ++ _) |- _ => apply bytes_app1 in H; destruct H | H : bytes (_ :: _) |- _ => apply bytes_cons in H end. assumption.
Qed.
Lemma begins_depicted pf x data v k u : hash32 (p_hash pf) -> bytes data -> zlen data < 65472 -> no_leap data ->
  tx_parse pf x (1 :: data) = Ret (TV1 v) -> begins data k u -> args_pos k u < 256 -> plain_types u ->
  (forall name, f_entry u = Custom name -> version_known x (f_target u)) -> exists t, depicts k u data t.
Proof.
  intros Hh B L NL H Bg LA PT VK.
  assert (A : exists a, match f_entry u with
            | Op _ => exists l, a = Named l /\ f_args u = ANamed (List.map raw_of l)
            | Custom _ => exists bs, a = Raw bs /\ digested k u data bs
            | Call => True end).
  { unfold plain_types in PT. destruct (f_entry u) as [|name|n] eqn:E; [exists (Raw []); exact Logic.I| |].
    - destruct (begins_digested _ _ _ _ _ _ _ Hh B L NL H Bg E LA (VK _ eq_refl)) as (bs & D). eauto.
    - destruct (begins_mandatory _ _ _ _ _ _ _ Hh B L NL H Bg E) as (l & El & _). rewrite El in PT |- *.
      destruct (raw_list l) as (q & ->); eauto; [|eapply args_in; eauto]. destruct Bg as (Fo & _). pose proof (fo_args _ Fo) as Fa. rewrite El in Fa. exact Fa. }
  destruct A as (a & Da). exists (Transaction (f_hash u) (Payload (f_initiator u) (f_time u) (f_ttl u) (f_chain u) (price_of (f_price u)) a (f_target u) (f_entry u)) (List.map approval_of (f_approvals u))).
  constructor; try reflexivity; [|exact Da|].
  - cbn [x_payload x_pricing]. destruct (f_price u); cbn [price_of same_price]; auto.
  - cbn [x_approvals]. unfold S.len. rewrite map_length. reflexivity.
Qed.

(** ** Where the bytes under the hash come from *)
Lemma here_in (a b c bs : list Z) p : here (a ++ b ++ c) p bs -> zlen a <= p -> p + zlen bs <= zlen a + zlen b -> exists s t, b = s ++ bs ++ t /\ zlen s = p - zlen a.
Proof.
  intros (x & y & E & L) P Q. change (@S.len Z) with (@zlen Z) in L.
  assert (X : exists s, x = a ++ s).
  { exists (skipn (List.length a) x). apply (f_equal (firstn (List.length a))) in E. rewrite firstn_app, Nat.sub_diag, firstn_O, app_nil_r, firstn_all in E.
    rewrite firstn_app in E. replace (List.length a - List.length x)%nat with 0%nat in E by (unfold zlen in *; lia). rewrite firstn_O, app_nil_r in E. rewrite E at 1. symmetry. apply firstn_skipn. }
  destruct X as (s & ->). rewrite zlen_app in L. rewrite <- app_assoc in E. apply app_inv_head in E.
  exists s. assert (Y : exists t, y = t ++ c).
  { assert (Ey : b ++ c = (s ++ bs) ++ y) by (rewrite E, <- app_assoc; reflexivity).
    exists (firstn (List.length b - List.length (s ++ bs)) y). 
    assert (Lb : (List.length (s ++ bs) <= List.length b)%nat) by (rewrite app_length; unfold zlen in *; lia).
    assert (Ec : c = skipn (List.length b - List.length (s ++ bs)) y).
    { pose proof (f_equal (skipn (List.length b)) Ey) as K. rewrite skipn_app, Nat.sub_diag, skipn_all in K. rewrite skipn_app in K.
      rewrite (skipn_all2 (s ++ bs)) in K by lia. exact K. }
    rewrite Ec at 1. symmetry. apply firstn_skipn. }
  destruct Y as (t & ->). exists t. split; [|lia]. rewrite !app_assoc in E. apply app_inv_tail in E. rewrite E, <- app_assoc. reflexivity.
Qed.
Lemma core_args k u : exists pre post, form_payload k u = pre ++ argument_bytes (f_args u) ++ post /\ zlen (heading (n_top k) ++ f_hash u) + zlen pre = args_pos k u - 5.
Proof.
  unfold form_payload, under, form_fields, section. cbn [List.concat].
  exists (heading (n_payload k) ++ (heading (n_initiator k) ++ List.concat (initiator_fields (f_initiator u))) ++ le 8 (f_time u) ++ le 8 (f_ttl u) ++ lv (f_chain u)
    ++ (heading (n_price k) ++ List.concat (price_fields (f_price u))) ++ le 4 4 ++ le 2 0 ++ le 4 (n_args k)). eexists. split.
  - unfold under. rewrite <- !app_assoc. reflexivity.
  - unfold args_pos, before_body, under. change (@S.len Z) with (@zlen Z). rewrite !zlen_app, !le_length. cbn [Z.of_nat Pos.of_succ_nat Pos.succ]. lia.
Qed.
(** The bytes are in the payload if the length does not leave it, and those of
    the arguments if the length is right. *)
Lemma digested_signed data k u bs : begins data k u -> digested k u data bs -> 1 <= n_args k ->
  args_pos k u - 5 + n_args k <= zlen (heading (n_top k) ++ f_hash u ++ form_payload k u) -> exists a b, form_payload k u = a ++ bs ++ b.
Proof.
  intros Bg D N1 N2. destruct (core_args k u) as (pre & post & E & P). destruct Bg as (Fo & No & Bg).
  assert (Bg0 : begins data k u) by (split; [exact Fo|split; [exact No|exact Bg]]). destruct (begins_core _ _ _ Bg0) as (m & Ed).
  unfold digested in D. destruct (f_args u) as [l|b] eqn:Ea.
  - destruct D as [Hr Lr]. pose proof (no_args _ _ No) as Wn. unfold word in Wn. change (@S.len Z) with (@zlen Z) in Lr. rewrite Z.mod_small in Lr by lia.
    unfold core in Ed. replace ((heading (n_top k) ++ f_hash u ++ form_payload k u) ++ le 4 (zlen (f_approvals u)) ++ m)
      with ((heading (n_top k) ++ f_hash u) ++ form_payload k u ++ (le 4 (zlen (f_approvals u)) ++ m)) in Ed by (rewrite <- !app_assoc; reflexivity). rewrite Ed in Hr. apply here_in in Hr; [|pose proof (zlen_nonneg pre); lia|rewrite !zlen_app in *; lia].
    destruct Hr as (s & t & Es & _). eauto.
  - subst b. exists (pre ++ 1 :: le 4 (len bs)), post. rewrite E. cbn [argument_bytes]. unfold lv. rewrite <- !app_assoc. cbn [app]. rewrite <- !app_assoc. reflexivity.
Qed.
Lemma digested_right data k u bs l : begins data k u -> digested k u data bs -> f_args u = ANamed l -> n_args k = len (argument_bytes (f_args u)) ->
  argument_bytes (f_args u) = 0 :: bs.
Proof.
  intros Bg D Ea En. destruct (core_args k u) as (pre & post & E & P). destruct (begins_core _ _ _ Bg) as (m & Ed). destruct Bg as (Fo & No & _).
  unfold digested in D. rewrite Ea in *. destruct D as [Hr Lr]. pose proof (no_args _ _ No) as Wn. unfold word in Wn. change (@S.len Z) with (@zlen Z) in *.
  assert (1 <= n_args k) by (rewrite En; cbn [argument_bytes]; rewrite zlen_cons; pose proof (zlen_nonneg (le 4 (S.len l) ++ args_bytes l)); lia).
  rewrite Z.mod_small in Lr by lia. unfold core in Ed. rewrite E in Ed.
  replace ((heading (n_top k) ++ f_hash u ++ pre ++ argument_bytes (ANamed l) ++ post) ++ le 4 (zlen (f_approvals u)) ++ m)
    with (((heading (n_top k) ++ f_hash u) ++ pre) ++ argument_bytes (ANamed l) ++ (post ++ le 4 (zlen (f_approvals u)) ++ m)) in Ed by (rewrite <- !app_assoc; reflexivity).
  rewrite Ed in Hr. apply here_in in Hr; [|rewrite !zlen_app in *; lia|rewrite (zlen_app _ pre); lia].
  destruct Hr as (s & t & Es & Ls). rewrite (zlen_app _ pre) in Ls. pose proof (f_equal (@zlen Z) Es) as Ll. rewrite !zlen_app in Ll.
  pose proof (zlen_nonneg t). destruct t as [|c0 t]; [|exfalso; rewrite zlen_cons in Ll; pose proof (zlen_nonneg t); lia]. rewrite app_nil_r in Es.
  cbn [argument_bytes] in *. destruct s as [|c [|c' s]]; [exfalso; cbn in Ls; lia| |exfalso; rewrite !zlen_cons in Ls; pose proof (zlen_nonneg s); lia].
  cbn [app] in Es. injection Es as <- Eb. rewrite <- Eb. reflexivity.
Qed.
