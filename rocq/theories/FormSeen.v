(** The verdict on bytes that begin with the form of a TransactionV1, and its
    review, wherever the arguments are and whatever the lengths of the texts. *)
From Verif Require Import Base Zxlib Crypto Utils RuntimeArg Deploy DeployUI TxV1 TxV1UI Parser BaseFacts Spec SpecText SpecDeploy SpecTx SpecLayout SpecRaw SpecForm SpecShow SpecWrap Exec ArgsFacts ReaderFacts TextFacts Demo Shows DeployArgs SessionFacts ReviewFacts TxFacts TxBody TxShow TxReview RangeFacts BindFacts BindCases SafeFacts TxInv RawFacts TxAccept FwdFacts FormFacts FormUnique FormReview FormArgs FormRun FormAccept FormShow.
Import S ST SD SX SL SR SF SW SG.

(** ** Texts *)
Lemma before_nul_cstr s : before_nul s = cstr s.
Proof. induction s as [|c s IH]; cbn [before_nul cstr]; [reflexivity|]. rewrite IH. reflexivity. Qed.
Lemma vtext_seen lab n e o o1 : wf e -> at_ e o n -> xdisplays (show_text lab o (zlen n)) e o1 (xl lab (Text (visible n))).
Proof.
  intros W A. pose proof (at_bound _ _ _ W A) as B. pose proof (zlen_nonneg n). pose proof (wf_max e W).
  eexists _, o1. split.
  - unfold show_text, text_at. rewrite bind_assoc, step_ask. rewrite (wf_len e W) in B.
    unfold at_, slice in A. replace ((0 <=? o) && (0 <=? zlen n) && (o + zlen n <=? zlen (mem e))) with true in A by lia.
    injection A as A. replace (0 <=? o) with true by lia.
    unfold int_of_u32. replace (zlen n <? 2147483648) with true by lia.
    assert (LS : zlen (skipn (Z.to_nat o) (mem e)) = zlen (mem e) - o) by (unfold zlen in *; rewrite skipn_length; lia).
    rewrite LS. replace ((0 <=? zlen n) && (zlen n <=? zlen (mem e) - o)) with true by lia.
    rewrite A, <- before_nul_cstr. reflexivity.
  - split; reflexivity.
Qed.
Lemma cut_len n : zlen (cut_chain n) = zlen n mod 256.
Proof.
  unfold cut_chain. change (@S.len Z) with (@zlen Z). pose proof (zlen_nonneg n). pose proof (Z.mod_le (zlen n) 256 ltac:(lia) ltac:(lia)). pose proof (Z.mod_pos_bound (zlen n) 256 ltac:(lia)).
  unfold zlen at 1. rewrite firstn_length_le; [lia|]. unfold zlen in *. lia.
Qed.
Lemma chain_text lab n e i o x : wf e -> at_ e i n -> chain_shown x n ->
  displays (DISPLAY_STRING (str lab) i (u8 (zlen n))) e o (ln lab (Text (before_nul (cut_chain n)))).
Proof.
  intros W A [C _]. change (@S.len Z) with (@zlen Z) in C. pose proof (cut_len n) as CL. change (u8 (zlen n)) with (zlen n mod 256).
  rewrite <- (firstn_skipn (Z.to_nat (S.len n mod 256)) n) in A. apply at_app in A. destruct A as [A _]. fold (cut_chain n) in A.
  eexists _, o. split.
  - unfold DISPLAY_STRING. rewrite step_check by (destruct C as [C|[C _]]; lia). rewrite (step_at _ _ _ _ _ _ A) by lia.
    unfold c_text. replace (existsb (Z.eqb 0) (cut_chain n) || (zlen (cut_chain n) <? 100)) with true.
    + rewrite step_lift. reflexivity.
    + symmetry. apply orb_true_iff. destruct C as [C|[_ C]]; [right; lia|left]. apply existsb_exists. exists 0. auto.
  - split; [reflexivity|]. reflexivity.
Qed.

(** ** The heading *)
Lemma part_seen e k u q o : form_at e k u -> match q with v1_initiator | v1_timestamp | v1_ttl | v1_chainname => True | _ => clen u < 256 end ->
  index_headerpart_txnV1 (form_obj (expert e) k u) q e o = (Ret tt, fpart k u q).
Proof.
  intros X LC. destruct (Z.lt_ge_cases (clen u) 256) as [L|L]; [apply part_run_f; auto|].
  pose proof (fpieces_of _ _ _ X) as Pc. pose proof (fa_wf _ _ _ X) as W. pose proof (wf_max e W) as MX.
  pose proof (at_bound _ _ _ W (fp_price _ _ _ Pc)) as BP. pose proof (zlen_nonneg (price_tail (f_price u))) as NP.
  pose proof (zlen_nonneg (init_bytes (f_initiator u))) as NI. fold (ilen u) in NI. pose proof (zlen_nonneg (f_chain u)) as NC. fold (clen u) in NC.
  pose proof (zlen_nonneg (t_offs (n_top k))) as N1. pose proof (zlen_nonneg (t_offs (n_payload k))) as N2. pose proof (zlen_nonneg (t_offs (n_price k))) as N3.
  set (v := form_obj (expert e) k u).
  unfold index_headerpart_txnV1. unfold v. rewrite (proj1 (top1 e k u X)).
  change (metadata_size (tmeta (form_obj (expert e) k u))) with (tsize (n_top k)). change (metadata_size (tpayload_meta (form_obj (expert e) k u))) with (tsize (n_payload k)).
  change (theader (form_obj (expert e) k u)) with (header_obj (f_initiator u) (f_chain u) (n_price k) (f_price u)). unfold header_obj.
  cbn [initiator_address_metadata_size initiator_address_len chain_name_len pricing_mode pricing_mode_metadata_size].
  fold (ilen u) (clen u). cbn [fpart] in BP. unfold tsize in *.
  assert (EB : u16 (8 + 6 * zlen (t_offs (n_top k)) + 32 + (8 + 6 * zlen (t_offs (n_payload k))) + 20 + 1) = pay_at k + 21) by (unfold pay_at, tsize in *; rewrite u16_small; lia).
  rewrite EB. 
  match goal with |- bind (set_off ?a) _ _ _ = _ => assert (E : a = fpart k u q /\ 0 <= fpart k u q <= blen e) end.
  { assert (0 <= pay_at k) by (unfold pay_at, tsize; lia).
    destruct q; cbn [fpart]; try lia; try (rewrite u16_small by lia); split; lia. }
  destruct E as [E R]. rewrite E, step_set_off by lia. rewrite step_get_off, step_ask. unfold check. replace (fpart k u q <=? blen e) with true by lia. reflexivity.
Qed.
Lemma head_seen e k u t i l o : form_at e k u -> appears k u (mem e) t -> chain_shown (expert e) (f_chain u) ->
  xexpert_ok (expert e) (timefmt e) (x_payload t) ->
  Z.of_nat i < numItems (form_obj (expert e) k u) -> nth_error (top_lines (expert e) t) i = Some l ->
  xdisplays (getItemTxV1 (form_obj (expert e) k u) (Z.of_nat i)) e o l.
Proof.
  intros X [Dh Di Dt Dl Dc Dp _ De _ _] GC EX Li' Hi.
  pose proof (fpieces_of _ _ _ X) as Pc. pose proof (fa_wf _ _ _ X) as W. pose proof (fa_form _ _ _ X) as F.
  assert (PA : forall B q (kk : unit -> P B) o, match q with v1_initiator | v1_timestamp | v1_ttl | v1_chainname => True | _ => False end ->
    bind (index_headerpart_txnV1 (form_obj (expert e) k u) q) kk e o = kk tt e (fpart k u q)).
  { intros. rewrite (bind_Ret _ _ _ _ _ _ (part_seen e k u q o0 X ltac:(destruct q; auto; contradiction))). reflexivity. }
  destruct F as [Fh Fi Ft Fl Fp _ _ _ _]. change (@S.len Z) with (@zlen Z) in *.
  assert (ET : text (entry_text (x_entry (x_payload t))) = text (entry_text (f_entry u))) by (rewrite De; destruct (f_entry u); reflexivity).
  assert (Hi' : nth_error ([xl "Txn hash" (Hex (f_hash u)); xl "Type" (Words (text (entry_text (f_entry u))));
     xl "Chain ID" (Text (before_nul (cut_chain (f_chain u)))); xl "Account" (Hex (init_bytes (f_initiator u)))]
     ++ (if expert e then [xl "Timestamp" (Time (f_time u / 1000)); xl "Ttl" (Ttl (f_ttl u / 1000))]
                     ++ pricing_lines (x_pricing (x_payload t)) else [])) i = Some l).
  { rewrite <- Hi, <- Dh, <- ET, <- Dc, <- Di, <- Dt, <- Dl. unfold top_lines, frame. destruct (expert e); [destruct (x_pricing (x_payload t))|]; reflexivity. }
  clear Hi. rename Hi' into Hi. unfold xexpert_ok in EX. rewrite Dt, Dl in EX. pose proof (fun LC j o => pricing_items_f e k u t j l o X LC Dp) as PI.
  set (v := form_obj (expert e) k u) in *. set (pls := pricing_lines (x_pricing (x_payload t))) in *.
  assert (P2 : List.length pls = 2%nat) by (unfold pls; destruct (x_pricing (x_payload t)); reflexivity).
  apply nth_app2 in Hi. destruct Hi as [[L4 Hi]|[L4 Hi]].
  - unfold getItemTxV1, xdisplays. rewrite step_check by exact (proj2 (Z.ltb_lt _ _) Li'). rewrite step_ask.
    nth_split Hi; try (rewrite nth_error_nil in Hi; discriminate Hi); ground_eqb.
    + assert (M0 : metadata_size (tmeta v) + foff (tmeta v) 0 = tsize (n_top k)) by (unfold v; rewrite (proj2 (top1 e k u X)), Z.add_0_r; reflexivity).
      rewrite M0. pose proof (fp_hash _ _ _ Pc) as A. pose proof (at_bound _ _ _ W A) as Bd. pose proof (wf_max e W).
      rewrite step_set_off by lia. rewrite step_get_off. apply xdisplays_of. apply printBytes_shows; auto; lia.
    + eexists _, _. split; [reflexivity|]. split; [reflexivity|]. change (entry_point_type v) with (entry_no (f_entry u)). cbn [snd xl xrenders renders ival].
      rewrite entry_text_eq. reflexivity.
    + rewrite PA by exact I. rewrite step_get_off. change (chain_name_len (theader v)) with (u8 (zlen (f_chain u))).
      apply xdisplays_of. eapply chain_text; eauto. exact (fp_chain _ _ _ Pc).
    + rewrite PA by exact I. rewrite step_get_off. change (initiator_address_len (theader v)) with (zlen (init_bytes (f_initiator u))).
      apply xdisplays_of. apply printBytes_shows; auto; [exact (fp_init _ _ _ Pc)|].
      destruct (f_initiator u) as [alg key|h]; cbn [init_bytes form_initiator] in *; rewrite ?zlen_cons; [|change (@S.len Z) with (@zlen Z) in Fi; lia].
      unfold any_key in Fi. change (@S.len Z) with (@zlen Z) in Fi. destruct Fi as [[_ ->]|[[_ E]|[_ E]]]; [change (zlen (@nil Z)) with 0|rewrite E..]; lia.
  - cbn [List.length] in L4, Hi. destruct (expert e) eqn:EE; [|rewrite nth_error_nil in Hi; discriminate Hi].
    destruct (EX eq_refl) as (ET' & [ts ES] & EA). pose proof (proj2 GC eq_refl) as LC. change (clen u < 256) in LC. specialize (PI LC).
    unfold getItemTxV1, xdisplays. rewrite step_check by exact (proj2 (Z.ltb_lt _ _) Li'). rewrite step_ask, EE.
    remember (i - 4)%nat as j eqn:Ej. assert (i = 4 + j)%nat as -> by lia. clear Ej.
    destruct j as [|[|j]]; cbn [nth_error app] in Hi.
    -- injection Hi as <-. change (Z.of_nat (4 + 0)) with 4. ground_eqb. rewrite PA by exact I. eexists _, _. split.
       ++ unfold show_timestamp. step (readU64_at _ e _ W (fp_time _ _ _ Pc) ltac:(lia)). rewrite step_ask, ES. reflexivity.
       ++ split; [reflexivity|]. exists ts; auto.
    -- injection Hi as <-. change (Z.of_nat (4 + 1)) with 5. ground_eqb. rewrite PA by exact I.
       pose proof (show_ttl_at _ e _ W (fp_ttl _ _ _ Pc) Fl) as ST. replace (f_ttl u / 1000 <? 29 * 86400) with true in ST by lia.
       destruct ST as (s & ST & TT). eexists _, _. split; [exact ST|]. split; [reflexivity|]. exists s; auto.
    -- replace (Z.of_nat (4 + Datatypes.S (Datatypes.S j))) with (6 + Z.of_nat j) by lia.
       assert (J2 : Z.of_nat j < 2) by (pose proof (nth_cases _ _ _ Hi) as Lz; lia).
       replace (6 + Z.of_nat j =? 0) with false by lia. replace (6 + Z.of_nat j =? 1) with false by lia.
       replace (6 + Z.of_nat j =? 2) with false by lia. replace (6 + Z.of_nat j =? 3) with false by lia.
       replace (6 + Z.of_nat j =? 4) with false by lia. replace (6 + Z.of_nat j =? 5) with false by lia.
       unfold pricing_mode_items. replace (6 + Z.of_nat j <? 6 + 2) with true by lia. cbn [andb].
       replace (6 + Z.of_nat j - 6) with (Z.of_nat j) by lia. apply PI; auto.
Qed.

(** ** The body *)
Lemma seen_u8 e k u : form_at e k u -> u8 (body_at k u + 6 + 9) = seen_pos k u.
Proof. intros X. unfold seen_pos, args_pos, u8. rewrite (body_before _ _ _ X). f_equal. lia. Qed.
Lemma seen_bound k u : 0 <= seen_pos k u < 256.
Proof. unfold seen_pos. apply Z.mod_pos_bound. lia. Qed.
Lemma args_hash_seen e k u bs o : form_at e k u -> seen_bytes k u (mem e) bs ->
  xdisplays (show_custom_args_hash (form_obj (expert e) k u)) e o (xl "Args hash" (Hex (hash e bs))).
Proof.
  intros X D. pose proof (fa_wf _ _ _ X) as W. apply xdisplays_of. unfold show_custom_args_hash.
  change (targs (form_obj (expert e) k u)) with (args_obj (body_at k u + 6) (n_args k) (f_args u)). unfold seen_bytes in D.
  assert (S : exists i n, (let a := args_obj (body_at k u + 6) (n_args k) (f_args u) in if bytes_repr a then mem_slice (runtime_args_offset a) (runtime_args_len a)
      else mem_slice (runtime_args_offset a - 4) (u32 (runtime_args_len a - 1))) = mem_slice i n /\ at_ e i bs /\ n = zlen bs).
  { destruct (f_args u) as [l|b]; cbn [args_obj bytes_repr runtime_args_offset runtime_args_len]; destruct D as [D E]; eexists _, _; (split; [reflexivity|]); rewrite (seen_u8 _ _ _ X);
      (split; [apply here_at; auto|symmetry; exact E]). }
  destruct S as (i & n & S & Ai & ->). cbv zeta in S. cbv zeta. rewrite S.
  eexists _, o. split.
  - rewrite (step_at _ _ _ _ _ _ Ai) by reflexivity. rewrite step_ask.
    rewrite printBytes_ok; [rewrite step_lift; reflexivity | ..]; try apply (wf_hash e W).
    + apply (wf_hashb e W).
    + rewrite (wf_hash e W). lia.
  - split; reflexivity.
Qed.
Lemma entry_name_seen e k u name o : form_at e k u -> f_entry u = Custom name ->
  let v := form_obj (expert e) k u in
  xdisplays (show_text "Entry-point" (custom_entry_point v) (custom_entry_point_len v)) e o (xl "Entry-point" (Text (visible name))).
Proof.
  intros X E v. pose proof (fpieces_of _ _ _ X) as Pc. pose proof (fa_wf _ _ _ X) as W. pose proof (fp_entry _ _ _ Pc) as A.
  rewrite E in A. unfold under in A. apply at_app in A. destruct A as [_ A]. rewrite zlen_heading in A. cbn [entry_fields List.concat] in A. rewrite app_nil_r in A.
  apply at_app in A. destruct A as [_ A]. apply at_lv in A. destruct A as [_ A]. change (zlen [1]) with 1 in A.
  assert (EC : custom_entry_point v = entry_at (body_at k u) k (f_args u) (f_target u) + 4 + tsize (snd (n_entry k)) + 5 /\ custom_entry_point_len v = zlen name).
  { unfold v, form_obj, body_obj, entry_obj. rewrite E. split; reflexivity. }
  destruct EC as [-> ->]. apply vtext_seen; auto. unfold tsize.
  match goal with |- at_ e ?q _ => match type of A with at_ e ?p _ => replace q with p by lia end end. exact A.
Qed.
Lemma called_seen e v o0 name i r bs ls : wf e -> form_id i ->
  entry_point_type v = 1 -> ttarget v = id_obj o0 i ->
  match i with ByHash h | ByHashV h _ => at_ e (o0 + 1) h | ByName n | ByNameV n _ => at_ e (o0 + 5) n end ->
  (forall o, xdisplays (show_text "Entry-point" (custom_entry_point v) (custom_entry_point_len v)) e o (xl "Entry-point" (Text name))) ->
  (forall o, xdisplays (show_custom_args_hash v) e o (xl "Args hash" (Hex (hash e bs)))) ->
  numItems v = (if expert e then 9 else 4) + tgt_items (expert e) (XStored i r) + 1 -> 0 <= runtime_args_offset (targs v) < 65536 ->
  custom_review (hash e) (expert e) (visible_id i) name (Raw bs) = Some ls ->
  zlen ls = tgt_items (expert e) (XStored i r) + 1 /\
  forall k l0 o, nth_error ls k = Some l0 -> xdisplays (getItem_args v (Z.of_nat k)) e o l0.
Proof.
  intros W GI EP TT IA EN AH N RO R.
  assert (K : forall num, num = tgt_items (expert e) (XStored i r) + 1 -> 0 <= num < 200 ->
     u32 (numItems v - (if expert e then 9 else 4)) = num).
  { intros num -> Hn. rewrite N. destruct (expert e); rewrite u32_small; lia. }
  assert (GA : forall k o, getItem_args v (Z.of_nat k) e o = getItem_Custom v (Z.of_nat k) e (runtime_args_offset (targs v))).
  { intros k o. unfold getItem_args. rewrite EP, step_set_off by lia. reflexivity. }
  destruct i as [h|n|h ver|n ver]; cbn [visible_id custom_review tgt_items form_id arg_bytes] in *.
  - some_inj R. split; [reflexivity|]. change (S.len h) with (zlen h) in GI.
    intros k l0 o Hk. unfold xdisplays. rewrite GA. unfold getItem_Custom. rewrite step_ask, (K 4) by lia. rewrite TT. cbn [id_obj ttype tptr].
    cbn [app] in Hk. nth_split Hk; rewrite step_check by reflexivity; ground_eqb.
    + apply execution_ok.
    + apply hash_decimal_at; auto.
    + apply EN.
    + apply AH.
  - some_inj R. split; [reflexivity|].
    intros k l0 o Hk. unfold xdisplays. rewrite GA. unfold getItem_Custom. rewrite step_ask, (K 4) by lia. rewrite TT. cbn [id_obj ttype tptr tname_len].
    cbn [app] in Hk. nth_split Hk; rewrite step_check by reflexivity; ground_eqb.
    + apply execution_ok.
    + apply vtext_seen; auto.
    + apply EN.
    + apply AH.
  - destruct GI as [GI GV]. change (S.len h) with (zlen h) in GI. unfold ver_item in *. unfold NO_ENTITY_VERSION_PRESENT in *.
    destruct (expert e) eqn:X.
    + destruct ver as [nv|]; [|discriminate R]. cbn [ver_no good_ver] in *.
      destruct (nv =? 2 ^ 32 - 1) eqn:NV; [discriminate R|]. some_inj R.
      replace (nv =? 4294967295) with false in * by (change (2 ^ 32 - 1) with 4294967295 in NV; auto). cbn [negb andb b2z] in *.
      split; [reflexivity|].
      intros k l0 o Hk. unfold xdisplays. rewrite GA. unfold getItem_Custom. rewrite step_ask, X, (K 5) by lia. rewrite TT. cbn [id_obj ttype tptr entity_version ver_no].
      cbn [app] in Hk. nth_split Hk; rewrite step_check by reflexivity; ground_eqb.
      * apply execution_ok.
      * apply hash_decimal_at; auto.
      * unfold NO_ENTITY_VERSION_PRESENT. replace (nv =? 4294967295) with false by (change (2 ^ 32 - 1) with 4294967295 in NV; auto). apply version_ok. lia.
      * apply EN.
      * apply AH.
    + rewrite andb_false_r in *. cbn [b2z] in *. some_inj R. split; [reflexivity|].
      intros k l0 o Hk. unfold xdisplays. rewrite GA. unfold getItem_Custom. rewrite step_ask, X, (K 4) by lia. rewrite TT. cbn [id_obj ttype tptr entity_version ver_no].
      cbn [app] in Hk. nth_split Hk; rewrite step_check by reflexivity; ground_eqb.
      * apply execution_ok.
      * apply hash_decimal_at; auto.
      * apply EN.
      * apply AH.
  - rename GI into GV. unfold ver_item in *. unfold NO_ENTITY_VERSION_PRESENT in *.
    destruct (expert e) eqn:X.
    + destruct ver as [nv|]; [|discriminate R]. cbn [ver_no good_ver] in *.
      destruct (nv =? 2 ^ 32 - 1) eqn:NV; [discriminate R|]. some_inj R.
      replace (nv =? 4294967295) with false in * by (change (2 ^ 32 - 1) with 4294967295 in NV; auto). cbn [negb andb b2z] in *.
      split; [reflexivity|].
      intros k l0 o Hk. unfold xdisplays. rewrite GA. unfold getItem_Custom. rewrite step_ask, X, (K 5) by lia. rewrite TT. cbn [id_obj ttype tptr tname_len entity_version ver_no].
      cbn [app] in Hk. nth_split Hk; rewrite step_check by reflexivity; ground_eqb.
      * apply execution_ok.
      * apply vtext_seen; auto.
      * unfold NO_ENTITY_VERSION_PRESENT. replace (nv =? 4294967295) with false by (change (2 ^ 32 - 1) with 4294967295 in NV; auto). apply version_ok. lia.
      * apply EN.
      * apply AH.
    + rewrite andb_false_r in *. cbn [b2z] in *. some_inj R. split; [reflexivity|].
      intros k l0 o Hk. unfold xdisplays. rewrite GA. unfold getItem_Custom. rewrite step_ask, X, (K 4) by lia. rewrite TT. cbn [id_obj ttype tptr tname_len entity_version ver_no].
      cbn [app] in Hk. nth_split Hk; rewrite step_check by reflexivity; ground_eqb.
      * apply execution_ok.
      * apply vtext_seen; auto.
      * apply EN.
      * apply AH.
Qed.
Lemma nargs_seen u : nargs (f_args u) = announced u.
Proof. unfold announced. destruct (f_args u); reflexivity. Qed.
Lemma op_body_seen e k u n l ls : form_at e k u -> f_entry u = Op n -> tgt_items (expert e) (f_target u) = 0 ->
  Forall good_arg l -> zlen l = announced u -> here (mem e) (seen_pos k u) (enc_arg_list l) -> op_review (hash e) (expert e) n l = Some ls ->
  shows_form e (form_obj (expert e) k u) ls.
Proof.
  intros X EE ET GA EA HA R. pose proof (fa_wf _ _ _ X) as W. pose proof (here_at _ _ _ W HA) as NA. apply good_arg_ok in GA.
  unfold op_review in R. destruct (op_arity n l && _) eqn:EC; [|discriminate R]. apply andb_true_iff in EC. destruct EC as [E1 E2].
  destruct (all (op_lines (hash e) (expert e) n l)) as [rl|] eqn:EO; [|discriminate R]. some_inj R.
  pose proof (at_bound _ _ _ W NA) as BA. pose proof (zlen_nonneg (enc_arg_list l)).
  assert (ZL : nargs (f_args u) = zlen l) by (rewrite nargs_seen; auto).
  assert (RO : runtime_args_offset (targs (form_obj (expert e) k u)) = seen_pos k u).
  { change (targs (form_obj (expert e) k u)) with (args_obj (body_at k u + 6) (n_args k) (f_args u)). rewrite <- (seen_u8 _ _ _ X). destruct (f_args u); reflexivity. }
  destruct (op_items e (seen_pos k u) l n rl (form_obj (expert e) k u) W GA NA E1 EO) as [Z D]; auto.
  { change (entry_point_type (form_obj (expert e) k u)) with (entry_no (f_entry u)). rewrite EE. reflexivity. }
  { change (targs (form_obj (expert e) k u)) with (args_obj (body_at k u + 6) (n_args k) (f_args u)). rewrite <- ZL. destruct (f_args u); reflexivity. }
  assert (LM : zlen (lift_lines rl) = zlen rl) by (unfold lift_lines, zlen; rewrite map_length; reflexivity).
  pose proof (all_length _ _ EO) as LL.
  assert (LO : zlen (op_lines (hash e) (expert e) n l) <= 6).
  { unfold op_lines, vector. destruct n; repeat match goal with |- context [if ?b then _ else _] => destruct b end; cbn [app];
      repeat match goal with |- context [match ?x with Some _ => _ | None => _ end] => destruct x end;
      repeat match goal with |- context [if ?b then _ else _] => destruct b end; cbn; lia. }
  pose proof (zlen_nonneg rl).
  constructor.
  - rewrite items_of, ET, EE, ZL, LM, Z. cbn [entry_no]. rewrite u8_small by (destruct (expert e); lia). destruct (expert e); lia.
  - lia.
  - intros j l0 o Hk. unfold lift_lines in Hk. rewrite nth_error_map in Hk.
    match type of Hk with option_map _ ?r = _ => destruct r as [[lab v]|] eqn:EK end; [|discriminate Hk]. cbn in Hk. injection Hk as <-.
    apply xdisplays_of. apply D. exact EK.
Qed.
Lemma offset_seen e k u : form_at e k u -> 0 <= runtime_args_offset (targs (form_obj (expert e) k u)) < 65536.
Proof.
  intros X. change (targs (form_obj (expert e) k u)) with (args_obj (body_at k u + 6) (n_args k) (f_args u)). pose proof (seen_u8 _ _ _ X). pose proof (seen_bound k u).
  destruct (f_args u); cbn [args_obj runtime_args_offset]; lia.
Qed.
Lemma tgt_visible x t : tgt_items x (visible_target t) = tgt_items x t.
Proof. destruct t as [|[]|]; reflexivity. Qed.

Lemma body_seen e k u t ls : form_at e k u -> appears k u (mem e) t ->
  body_review (hash e) (expert e) (x_payload t) = Some ls \/ bare_body (hash e) (expert e) (x_payload t) = Some ls ->
  shows_form e (form_obj (expert e) k u) ls.
Proof.
  intros X D R. pose proof (fa_wf _ _ _ X) as W. pose proof (ap_args _ _ _ _ D) as DA. pose proof (fo_target _ (fa_form _ _ _ X)) as FT.
  unfold body_review, bare_body in R. rewrite (ap_entry _ _ _ _ D), (ap_target _ _ _ _ D) in R.
  destruct (f_entry u) as [|name|n] eqn:EE; cbn [visible_entry] in R.
  - assert (T0 : tgt_items (expert e) (f_target u) = 0 /\ ls = []).
    { destruct R as [R|R]; [destruct (f_target u); discriminate R|]. destruct (f_target u); cbn [visible_target] in R; [|discriminate R|]; some_inj R; split; reflexivity. }
    destruct T0 as [T0 ->]. constructor.
    + rewrite items_of, T0, EE. unfold entry_point_items. cbn [entry_no]. cbv [EntryPointTransfer EntryPointCustom EntryPointAddReservations EntryPointCancelReservations EntryPointCall].
      cbn [Z.eqb]. destruct (expert e); reflexivity.
    + cbn; lia.
    + intros j l0 o Hk. rewrite nth_error_nil in Hk. discriminate Hk.
  - destruct DA as (bs & Eb & Dg). rewrite Eb in R. pose proof (fun o => args_hash_seen e k u bs o X Dg) as AH.
    pose proof (offset_seen e k u X) as RO. pose proof (items_of e k u) as N. rewrite EE in N. unfold entry_point_items in N. cbn [entry_no] in N.
    cbv [EntryPointTransfer EntryPointCustom] in N. cbn [Z.eqb Pos.eqb] in N.
    destruct (f_target u) as [|i r|b r w] eqn:ET; cbn [visible_target] in R.
    2:{ assert (R' : custom_review (hash e) (expert e) (visible_id i) (visible name) (Raw bs) = Some ls) by (destruct R as [R|R]; [exact R|discriminate R]).
        assert (TR : 3 <= tgt_items (expert e) (XStored i r) <= 4) by (destruct i; cbn [tgt_items]; unfold ver_item, b2z; try destruct (_ && _); lia).
        assert (N' : numItems (form_obj (expert e) k u) = (if expert e then 9 else 4) + tgt_items (expert e) (XStored i r) + 1).
        { rewrite N. destruct (expert e); rewrite u8_small; lia. }
        destruct (called_seen e (form_obj (expert e) k u) (target_at (body_at k u) (f_args u) + 4 + tsize (snd (n_target k)) + 1 + tsize (n_id k)) (visible name) i r bs ls) as [Z Dis]; auto.
        - apply FT.
        - change (entry_point_type (form_obj (expert e) k u)) with (entry_no (f_entry u)). rewrite EE. reflexivity.
        - change (ttarget (form_obj (expert e) k u)) with (target_obj (target_at (body_at k u) (f_args u)) (snd (n_target k)) (n_id k) (f_target u)). rewrite ET. reflexivity.
        - exact (id_at_f e k u i r X ET).
        - intros o. apply entry_name_seen; auto.
        - constructor; [lia|lia|exact Dis]. }
    all: assert (ls = [xl "Args hash" (Hex (hash e bs))]) as -> by (destruct R as [R|R]; [discriminate R|some_inj R; reflexivity]).
    all: cbn [tgt_items] in N; assert (N1 : numItems (form_obj (expert e) k u) = (if expert e then 9 else 4) + 1) by (rewrite N; destruct (expert e); reflexivity).
    all: constructor; [rewrite N1; reflexivity|cbn; lia|].
    all: intros j l0 o Hk; destruct j as [|j]; cbn [nth_error] in Hk; [|rewrite nth_error_nil in Hk; discriminate Hk]; injection Hk as <-.
    all: unfold xdisplays, getItem_args; rewrite step_set_off by lia.
    all: replace (entry_point_type (form_obj (expert e) k u) =? EntryPointCustom) with true
           by (change (entry_point_type (form_obj (expert e) k u)) with (entry_no (f_entry u)); rewrite EE; reflexivity).
    all: unfold getItem_Custom; rewrite step_ask, N1;
      replace (u32 ((if expert e then 9 else 4) + 1 - (if expert e then 9 else 4))) with 1 by (destruct (expert e); reflexivity);
      rewrite step_check by reflexivity;
      change (ttarget (form_obj (expert e) k u)) with (target_obj (target_at (body_at k u) (f_args u)) (snd (n_target k)) (n_id k) (f_target u));
      rewrite ET; apply AH.
  - destruct DA as (l & El & Ga & Ea & Ha). rewrite El in R.
    assert (R' : op_review (hash e) (expert e) n l = Some ls /\ tgt_items (expert e) (f_target u) = 0)
      by (destruct R as [R|R], (f_target u); try discriminate R; (split; [exact R|reflexivity])).
    destruct R' as [R' T0]. eapply op_body_seen; eauto.
Qed.

(** ** All lines *)
Lemma lines_seen e k u t ls i l o : form_at e k u -> appears k u (mem e) t -> chain_shown (expert e) (f_chain u) -> shows_form e (form_obj (expert e) k u) ls ->
  xexpert_ok (expert e) (timefmt e) (x_payload t) -> nth_error (frame (expert e) t ls) i = Some l ->
  xdisplays (getItemTxV1 (form_obj (expert e) k u) (Z.of_nat i)) e o l.
Proof.
  intros X D G SB EX Hi. pose proof (fa_wf _ _ _ X) as W. destruct SB as [CNT FEW DIS]. pose proof (zlen_nonneg ls).
  destruct (top_split (expert e) t ls) as (r & E & Er & LT). rewrite E in Hi. apply nth_app2 in Hi. destruct Hi as [[L4 Hi]|[L4 Hi]].
  - eapply head_seen; eauto. rewrite LT in L4; destruct (expert e); lia.
  - rewrite LT in L4, Hi. subst r. pose proof (ap_approvals _ _ _ _ D) as DA. change (@S.len) with (@zlen) in *.
    eapply (tail_lines _ _ ls (zlen (x_approvals t))); eauto using zlen_nonneg.
Qed.

(** ** The verdict *)
Lemma sane_seen e k u t : form_at e k u -> appears k u (mem e) t ->
  if acceptable (x_payload t) then sane_of e k u = Ret tt else exists c, sane_of e k u = Fail c.
Proof.
  intros X D. pose proof (fa_wf _ _ _ X) as W. pose proof (ap_args _ _ _ _ D) as DA.
  assert (Ho : 0 <= entry_end (body_at k u) k (f_args u) (f_target u) (f_entry u) < 65536).
  { pose proof (fp_entry _ _ _ (fpieces_of _ _ _ X)) as A. pose proof (at_bound _ _ _ W A) as Bo. pose proof (wf_max e W). unfold entry_end.
    pose proof (zlen_nonneg (under (snd (n_entry k)) (entry_fields (f_entry u)))). lia. }
  unfold acceptable, sane_of, sane_form. rewrite (ap_entry _ _ _ _ D), (ap_target _ _ _ _ D).
  pose proof (fo_callable _ (fa_form _ _ _ X)) as Cl.
  destruct (f_entry u) as [|nm|n] eqn:EE; cbn [visible_entry].
  - replace (callable Call (visible_target (f_target u))) with true by (destruct (f_target u) as [|[]|]; try discriminate Cl; reflexivity). cbn [andb complete]. unfold check_sanity_native_transfer. rewrite step_get_off.
    assert (C : (entry_no Call =? EntryPointCustom) || (target_no (f_target u) =? TargetNative) || (target_no (f_target u) =? TargetSession) = true)
      by (destruct (f_target u) as [|[]|]; try discriminate Cl; reflexivity).
    rewrite C, step_check by reflexivity. cbn [entry_no]. cbv [EntryPointTransfer EntryPointAddBid EntryPointWithdrawBid EntryPointDelegate EntryPointUndelegate EntryPointRedelegate EntryPointActivateBid EntryPointChangePublicKey EntryPointAddReservations EntryPointCancelReservations EntryPointBurn].
    cbn [Z.eqb orb]. rewrite step_ret. unfold set_off. reflexivity.
  - cbn [callable andb complete]. unfold check_sanity_native_transfer. rewrite step_get_off. rewrite step_check by reflexivity.
    cbn [entry_no]. cbv [EntryPointTransfer EntryPointAddBid EntryPointWithdrawBid EntryPointDelegate EntryPointUndelegate EntryPointRedelegate EntryPointActivateBid EntryPointChangePublicKey EntryPointAddReservations EntryPointCancelReservations EntryPointBurn].
    cbn [Z.eqb Pos.eqb orb]. rewrite step_ret. unfold set_off. reflexivity.
  - destruct DA as (l & El & Ga & Ea & Ha). rewrite El.
    set (ao := args_obj (body_at k u + 6) (n_args k) (f_args u)).
    assert (Na : num_runtime_args ao = zlen (named (Named l))) by (unfold ao; rewrite nargs_form, nargs_seen; cbn [named]; auto).
    assert (Aa : match Op n with Op _ => at_ e (runtime_args_offset ao) (enc_arg_list (named (Named l))) | _ => True end).
    { assert (E : runtime_args_offset ao = seen_pos k u) by (rewrite <- (seen_u8 _ _ _ X); unfold ao; destruct (f_args u); reflexivity). rewrite E. apply here_at; auto. }
    pose proof (sanity_at (Named l) (Op n) (f_target u) e _ W Ho Ga ao Na Aa) as Sx.
    replace (callable (Op n) (visible_target (f_target u))) with (callable (Op n) (f_target u)) by (destruct (f_target u); reflexivity).
    destruct (_ && _); [rewrite Sx; reflexivity|]. destruct Sx as (c & o' & Sx). exists c. rewrite Sx. reflexivity.
Qed.

Section Verdict.
Variables (pf : platform) (x : bool) (data : list Z) (k : numbers) (u : form) (t : transaction).
Hypotheses (Hh : hash32 (p_hash pf)) (B : bytes data) (L : zlen data < 65472) (Bg : begins data k u) (D : appears k u data t).
Let e := ctx_of pf x false 40 data (zlen data).
Lemma seen_no : (f_hash u <> p_hash pf (form_payload k u) \/ acceptable (x_payload t) = false) -> exists c, tx_parse pf x (1 :: data) = Fail c.
Proof.
  intros Bad. destruct (begins_env pf x 40 data k u Hh B L Bg) as (X & Mo & Lf). fold e in X, Mo.
  pose proof (form_run e k u X Mo Lf) as R. pose proof (sane_seen e k u t X D) as Sn. rewrite (parse_as pf x data k u Hh B L Bg). fold e.
  unfold parse_content. change (1 =? content_Deploy) with false. change (1 =? content_TransactionV1) with true. cbv iota. rewrite bind_assoc.
  destruct (acceptable (x_payload t)).
  - destruct Bad as [Bad|Bad]; [|discriminate Bad]. rewrite Sn in R. cbn [follows] in R. step R. rewrite step_ret. unfold parser_validate. rewrite bind_assoc.
    pose proof (valid_decided e k u (zlen (form_bytes k u)) X) as V. destruct (list_eqb _ _) eqn:E.
    + apply list_eqb_eq in E. exfalso. apply Bad. symmetry. exact E.
    + exists parser_context_mismatch. unfold bind at 1. rewrite V. reflexivity.
  - destruct Sn as (c & Sn). rewrite Sn in R. cbn [follows] in R. destruct R as (o' & R). exists c. rewrite (bind_Fail _ _ _ _ _ _ R). reflexivity.
Qed.
Lemma seen_yes lines : f_hash u = p_hash pf (form_payload k u) -> acceptable (x_payload t) = true -> chain_shown x (f_chain u) ->
  review (p_hash pf) x t = Some lines \/ bare_review (p_hash pf) x t = Some lines -> xexpert_ok x (p_time pf) (x_payload t) ->
  xreviews pf x (1 :: data) lines.
Proof.
  intros HV AC CS R EX. destruct (begins_env pf x 40 data k u Hh B L Bg) as (X & Mo & Lf). fold e in X, Mo.
  pose proof (form_run e k u X Mo Lf) as RR. pose proof (sane_seen e k u t X D) as Sn. rewrite AC in Sn. rewrite Sn in RR. cbn [follows] in RR.
  assert (FR : exists ls, lines = frame x t ls /\ (body_review (p_hash pf) x (x_payload t) = Some ls \/ bare_body (p_hash pf) x (x_payload t) = Some ls)).
  { unfold review, bare_review in R. destruct R as [R|R]; [destruct (body_review _ _ _) as [s|]|destruct (bare_body _ _ _) as [s|]]; try discriminate R; some_inj R; eauto. }
  destruct FR as (ls & -> & R').
  assert (FE : forall kl, form_at (ctx_of pf x false kl data (zlen data)) k u) by (intros kl; apply (begins_env pf x kl data k u Hh B L Bg)).
  assert (SB : forall kl, shows_form (ctx_of pf x false kl data (zlen data)) (form_obj x k u) ls) by (intros kl; exact (body_seen _ k u t ls (FE kl) D R')).
  exists (TV1 (form_obj x k u)).
  assert (CN : getNumItems x (TV1 (form_obj x k u)) = zlen (frame x t ls)).
  { cbn [getNumItems]. rewrite (sh_len _ _ _ (SB 40)). change (expert (ctx_of pf x false 40 data (zlen data))) with x.
    unfold frame. assert (ZL : zlen (pricing_lines (x_pricing (x_payload t))) = 2) by (destruct (x_pricing (x_payload t)); reflexivity).
    destruct x; rewrite !zlen_app, ?zlen_cons, ?ZL; repeat match goal with |- context [zlen (@nil ?A)] => change (zlen (@nil A)) with 0 end; lia. }
  split; [|split; [exact CN|]].
  - rewrite (parse_as pf x data k u Hh B L Bg). fold e. unfold parse_content. change (1 =? content_Deploy) with false. change (1 =? content_TransactionV1) with true. cbv iota. rewrite bind_assoc.
    step RR. rewrite step_ret. unfold parser_validate. rewrite bind_assoc.
    pose proof (valid_decided e k u (zlen (form_bytes k u)) X) as V. change (hash e) with (p_hash pf) in V. rewrite <- HV in V. 
    replace (list_eqb (f_hash u) (f_hash u)) with true in V by (symmetry; apply list_eqb_eq; reflexivity). step V. rewrite bind_assoc, step_ask. change (expert e) with x. rewrite CN.
    destruct (xitems_ok e (TV1 (form_obj x k u)) (frame x t ls)) with (n := Z.to_nat (zlen (frame x t ls))) (idx := 0%nat) (o := zlen (form_bytes k u)) as (its & o2 & HI).
    + intros i l o Hi. exact (lines_seen e k u t ls i l o X D CS (SB 40) EX Hi).
    + unfold zlen. lia.
    + change (Z.of_nat 0) with 0 in HI. step HI. reflexivity.
  - intros i l Hi kl. pose proof (zlen_nonneg data). unfold tx_getItem. cbv iota. rewrite zlen_cons, u16_small by lia. replace (1 + zlen data - 1) with (zlen data) by lia.
    destruct (lines_seen _ k u t ls i l 0 (FE kl) D CS (SB kl) EX Hi) as (it & o' & E1 & SH).
    exists it. cbn [getItem]. change (expert (ctx_of pf x false kl data (zlen data))) with x in E1. rewrite E1. split; [reflexivity | exact SH].
Qed.
(** With no condition but acceptance. *)
Lemma seen_accepted v lines : tx_parse pf x (1 :: data) = Ret v -> chain_shown x (f_chain u) ->
  review (p_hash pf) x t = Some lines \/ bare_review (p_hash pf) x t = Some lines -> xexpert_ok x (p_time pf) (x_payload t) ->
  f_hash u = p_hash pf (form_payload k u) /\ acceptable (x_payload t) = true /\ xreviews pf x (1 :: data) lines.
Proof.
  intros T CS R EX. 
  assert (HV : f_hash u = p_hash pf (form_payload k u)).
  { destruct (list_eqb (f_hash u) (p_hash pf (form_payload k u))) eqn:Q; [apply list_eqb_eq in Q; exact Q|].
    destruct seen_no as (c & F); [left; intros E; apply list_eqb_eq in E; congruence|congruence]. }
  assert (AC : acceptable (x_payload t) = true).
  { destruct (acceptable (x_payload t)) eqn:A; [reflexivity|]. destruct seen_no as (c & F); [right; exact A|congruence]. }
  split; [exact HV|]. split; [exact AC|]. apply seen_yes; auto.
Qed.
End Verdict.

(** Below byte 256 and with texts that fit, this is what C73 says. *)
Lemma visible_id_good i : good_id i -> visible_id i = i.
Proof. 
  assert (V : forall n, good_name 99 n -> visible n = n).
  { intros n [Hl Hn]. change (S.len n) with (zlen n) in Hl. unfold visible. rewrite before_nul_cstr, cstr_id by auto. apply firstn_all2. unfold zlen in Hl. lia. }
  destruct i; cbn [visible_id]; auto; [intros G|intros [G _]]; rewrite V by exact G; reflexivity.
Qed.
Lemma appears_depicts e k u t : form_at e k u -> depicts k u (mem e) t -> presentable t -> args_pos k u < 256 -> appears k u (mem e) t.
Proof.
  intros X D G L. pose proof (fpieces_of _ _ _ X) as Pc. pose proof (fa_wf _ _ _ X) as W.
  assert (V : forall n, good_name 99 n -> before_nul n = n /\ visible n = n /\ cut_chain n = n).
  { intros n [Hl Hn]. change (S.len n) with (zlen n) in Hl. pose proof (zlen_nonneg n). unfold visible, cut_chain. change (S.len n) with (zlen n). rewrite before_nul_cstr, cstr_id by auto.
    rewrite Z.mod_small by lia. split; [reflexivity|]. split; apply firstn_all2; unfold zlen in *; lia. }
  assert (SP : seen_pos k u = args_pos k u).
  { unfold seen_pos. apply Z.mod_small. split; [|exact L]. unfold args_pos, before_body. change (@S.len Z) with (@zlen Z).
    repeat match goal with |- context [zlen ?l] => lazymatch goal with Hq : 0 <= zlen l |- _ => fail | _ => pose proof (zlen_nonneg l) end end. lia. }
  destruct G as [G1 G2 G3 G4 G5]. destruct D as [D1 D2 D3 D4 D5 D6 D7 D8 D9 D10]. constructor; auto.
  - rewrite D5 in *. destruct (V _ G1) as (V1 & _ & V3). rewrite V3, V1. reflexivity.
  - rewrite D7 in *. destruct (f_target u); cbn [visible_target]; auto. rewrite visible_id_good by exact G3. reflexivity.
  - rewrite D8 in *. destruct (f_entry u); cbn [visible_entry good_entry] in *; auto. rewrite (proj1 (proj2 (V _ G2))). reflexivity.
  - destruct (f_entry u) as [|nm|n]; auto.
    + destruct D9 as (bs & Eb & Dg). exists bs. split; [exact Eb|]. unfold seen_bytes, digested in *. rewrite SP. destruct (f_args u) as [l|b] eqn:EA; [exact Dg|]. subst bs. split; [|reflexivity].
      pose proof (fp_args _ _ _ Pc) as A. rewrite EA in A. cbn [argument_bytes] in A. apply at_cons in A. destruct A as [_ A]. apply at_lv in A. destruct A as [_ A].
      unfold args_pos. rewrite (body_before _ _ _ X). replace (body_at k u + 15) with (body_at k u + 10 + 1 + 4) by lia. apply slice_here in A. exact (proj1 A).
    + destruct D9 as (l & El & Ea). exists l. split; [exact El|]. rewrite El in G4. split; [exact G4|]. split.
      * unfold announced. rewrite Ea. change (@S.len) with (@zlen). unfold zlen. rewrite map_length. reflexivity.
      * rewrite SP. unfold args_pos. rewrite (body_before _ _ _ X). pose proof (named_at_f _ _ _ _ X Ea) as A. apply slice_here in A. exact (proj1 A).
  - rewrite D10 in G5. rewrite D10. change (@S.len) with (@zlen) in *. pose proof (zlen_nonneg (f_approvals u)). rewrite Z.mod_small; lia.
Qed.

(** ** Calls: every accepted one has such a transaction *)
Lemma seen_of e k u it o o' : form_at e k u -> show_custom_args_hash (form_obj (expert e) k u) e o = (Ret it, o') -> exists bs, seen_bytes k u (mem e) bs.
Proof.
  intros X H. pose proof (seen_u8 _ _ _ X) as SU. unfold show_custom_args_hash in H.
  change (targs (form_obj (expert e) k u)) with (args_obj (body_at k u + 6) (n_args k) (f_args u)) in H. unfold seen_bytes.
  destruct (f_args u) as [l|b]; cbn [args_obj bytes_repr runtime_args_offset runtime_args_len] in H; rewrite SU in H; bx H bs o1 S; unfold mem_slice in S;
    (destruct (slice (mem e) _ _) as [bs'|] eqn:Sl; [|discriminate S]); apply slice_here in Sl; exists bs'; exact Sl.
Qed.
Lemma same_seen k u k' u' data bs : same_form k u k' u' -> seen_bytes k u data bs -> seen_bytes k' u' data bs.
Proof. intros S. pose proof (same_at _ _ _ _ S) as P. unfold seen_bytes, seen_pos. rewrite <- P, <- (sf_arguments _ _ _ _ S), <- (proj1 (sf_sections _ _ _ _ S)). auto. Qed.
Lemma begins_seen pf x data v k u : hash32 (p_hash pf) -> bytes data -> zlen data < 65472 -> no_leap data ->
  tx_parse pf x (1 :: data) = Ret (TV1 v) -> begins data k u -> (forall n, f_entry u <> Op n) ->
  (forall name, f_entry u = Custom name -> version_known x (f_target u)) -> exists t, appears k u data t.
Proof.
  intros Hh B L NL H Bg NO VK.
  assert (A : exists a, match f_entry u with
            | Op _ => exists l, a = Named l /\ Forall good_arg l /\ S.len l = announced u /\ here data (seen_pos k u) (enc_arg_list l)
            | Custom _ => exists bs, a = Raw bs /\ seen_bytes k u data bs
            | Call => True end).
  { destruct (f_entry u) as [|name|n] eqn:En; [exists (Raw []); exact Logic.I| |destruct (NO n eq_refl)]. specialize (VK _ eq_refl).
    enough (X : exists bs, seen_bytes k u data bs) by (destruct X as (bs & X); eauto).
    destruct (form_begins _ _ _ _ Hh B L NL H) as (k' & u' & Bg' & _ & Ev & post & Ed).
    pose proof (form_unique data k' u' k u ltac:(lia) Bg' Bg) as S. rewrite <- (sf_target _ _ _ _ S) in VK. rewrite <- (sf_entry _ _ _ _ S) in En.
    enough (X : exists bs, seen_bytes k' u' data bs) by (destruct X as (bs & X); exists bs; eapply same_seen; eauto).
    clear S Bg NO k u. rename k' into k. rename u' into u. destruct Bg' as (Fo & No & _).
    destruct (accept_inv pf x 1 data (TV1 v) ltac:(lia) H) as (_ & o1 & o2 & its & o3 & q & _ & _ & It).
    pose proof (form_env pf x 40 data k u post Hh B L Fo No Ed) as FA. set (e := ctx_of pf x false 40 data (zlen data)) in *.
    destruct (items_nth _ _ _ _ _ _ _ It) as [_ K]. cbn [getNumItems] in K. change x with (expert e) in Ev, VK.
    destruct (hash_line e k u name (mkItem [] (VDirect [])) 0 0 FA En VK) as (N & R & _). rewrite <- Ev in N.
    destruct (K (Z.to_nat ((if expert e then 8 else 4) + tgt_items (expert e) (f_target u)))) as (it & p1 & p2 & _ & G).
    { rewrite N. destruct (expert e); lia. }
    cbn [getItem] in G. rewrite Z.add_0_l, Z2Nat.id in G by (destruct (expert e); lia).
    rewrite (body_item v e (tgt_items (expert e) (f_target u) + 1)) in G by (try exact N; lia).
    destruct (hash_line e k u name it p1 p2 FA En VK) as (_ & _ & Q). rewrite Ev in G. destruct (Q G) as (r1 & r2 & Sh).
    eapply (seen_of e); eauto. }
  destruct A as (a & Da).
  exists (Transaction (f_hash u) (Payload (f_initiator u) (f_time u) (f_ttl u) (before_nul (cut_chain (f_chain u))) (price_of (f_price u)) a (visible_target (f_target u)) (visible_entry (f_entry u)))
    (repeat (SD.Approval 1 [] []) (Z.to_nat (S.len (f_approvals u) mod 256)))).
  constructor; try reflexivity; [|exact Da|].
  - cbn [x_payload x_pricing]. destruct (f_price u); cbn [price_of same_price]; auto.
  - cbn [x_approvals]. unfold S.len at 1. rewrite repeat_length. pose proof (Z.mod_pos_bound (S.len (f_approvals u)) 256). lia.
Qed.
Lemma seen_below pf x data k u t : hash32 (p_hash pf) -> bytes data -> zlen data < 65472 -> begins data k u -> depicts k u data t -> presentable t -> args_pos k u < 256 ->
  appears k u data t /\ chain_shown x (f_chain u).
Proof.
  intros Hh B L Bg D G A. destruct (begins_env pf x 40 data k u Hh B L Bg) as (X & _ & _). split; [exact (appears_depicts _ k u t X D G A)|].
  destruct G as [[G _] _ _ _ _]. rewrite (de_chain _ _ _ _ D) in G. change (@S.len Z) with (@zlen Z) in *. unfold chain_shown. change (@S.len Z) with (@zlen Z). pose proof (zlen_nonneg (f_chain u)).
  rewrite Z.mod_small by lia. split; [left; lia|intros _; lia].
Qed.
