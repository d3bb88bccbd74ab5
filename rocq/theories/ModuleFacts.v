(** Module-bytes sessions. *)
From Verif Require Import Base Zxlib Crypto Utils RuntimeArg Deploy DeployUI BaseFacts Spec SpecText SpecDeploy Exec ArgsFacts ReaderFacts TextFacts Shows DeployArgs SessionFacts DelegationFacts StoredFacts.
Import S ST SD.

(** [tail]: the bytes after the session, a count of at most 100 followed by at
    least that many bytes starting with an algorithm tag. *)
Record tail_ok (c : Z) (rest : list Z) : Prop := {
  tk_count : 0 <= c <= 100; tk_enough : c <= zlen rest;
  tk_tag : forall b r, rest = b :: r -> b = 1 \/ b = 2 }.

Lemma enc_arg_list_app a b : enc_arg_list (a ++ b) = enc_arg_list a ++ enc_arg_list b.
Proof. unfold enc_arg_list. rewrite map_app, concat_app. reflexivity. Qed.
Lemma at_firstn e o l k : at_ e o (enc_arg_list l) -> at_ e o (enc_arg_list (firstn k l)).
Proof.
  rewrite <- (firstn_skipn k l) at 1. rewrite enc_arg_list_app, at_app. tauto.
Qed.

Lemma at_prefix e o k bs : 0 <= k <= zlen bs -> at_ e o bs -> at_ e o (firstn (Z.to_nat k) bs) /\ zlen (firstn (Z.to_nat k) bs) = k.
Proof.
  intros K A. split.
  - rewrite <- (firstn_skipn (Z.to_nat k) bs) in A. apply at_app in A. tauto.
  - unfold zlen in *. rewrite firstn_length. lia.
Qed.

Definition module_item (x : bool) (l : list arg) (s tot : Z) : ditem :=
  match auction_op l with
  | Some op => mkD 0 (special_of (Some op)) false (if x then 2 else 0) (op_args op) tot s
  | None => mkD 0 Generic true 2 (if has "amount" l then 2 else 1) tot (s - 4)
  end.
Definition module_fine (l : list arg) (rl : list line) : Prop :=
  plain_types l = true /\
  match auction_op l with
  | Some op => delegation_review op (firstn (Z.to_nat (op_args op)) l) = Some rl
  | None => has "auction" l = false /\ typed_if_present is_key_type "new_validator" l = true /\
            generic_args_review l = Some rl
  end.

Lemma auction_inv l op : auction_op l = Some op ->
  exists a p nm, lookup (text "auction") l = Some (p, a) /\ a_ty a = Prim 10 /\ zlen (a_val a) <= 100 /\
    a_val a = lv nm /\ operation_of nm = Some op /\
    has "new_validator" l = is_redelegate (Some op).
Proof.
  unfold auction_op, find_arg. destruct (lookup (text "auction") l) as [[p a]|] eqn:E; [|discriminate].
  destruct (match a_ty a with Prim 10 => true | _ => false end && (S.len (a_val a) <=? 100)) eqn:C; [|discriminate].
  apply andb_true_iff in C. destruct C as [C1 C2].
  destruct (a_val a) as [|b1 [|b2 [|b3 [|b4 nm]]]] eqn:V; try discriminate.
  destruct (list_eq_dec Z.eq_dec (b1 :: b2 :: b3 :: b4 :: nm) (lv nm)) as [LV|]; [|discriminate].
  intros X. exists a, p, nm. repeat split; auto.
  - destruct (a_ty a) as [g| | | | | | | |]; try discriminate C1.
    destruct g as [|g|g]; try discriminate C1. repeat (destruct g as [g|g|]; try discriminate C1). reflexivity.
  - rewrite V. change (S.len (b1 :: b2 :: b3 :: b4 :: nm)) with (zlen (b1 :: b2 :: b3 :: b4 :: nm)) in C2. lia.
  - rewrite V; exact LV.
  - destruct (operation_of nm) as [[]|]; destruct (has "new_validator" l); inversion X; reflexivity.
  - destruct (operation_of nm) as [[]|]; destruct (has "new_validator" l); inversion X; reflexivity.
Qed.

Lemma search_try {B} name l e o (k : (Z * Z) + Z -> P B) :
  wf e -> Forall arg_ok l -> at_ e o (enc_arg_list l) ->
  exists r, bind (try (searchRuntimeArgs (str name) (zlen l))) k e o = k r e o /\
            (match r with inl _ => true | inr _ => false end) = has name l.
Proof.
  intros W F A. pose proof (search_at (text name) l e o W F A) as S. unfold has.
  change (str name) with (text name).
  destruct (find_arg (text name) l) as [a|].
  - destruct S as (t & _ & S). exists (inl t). rewrite (step_try_ok _ _ _ _ _ _ S). auto.
  - exists (inr parser_runtimearg_notfound). rewrite (step_try_fail _ _ _ _ _ _ S). auto.
Qed.

Lemma module_op l rl e s c rest :
  wf e -> wasm e = false -> Forall arg_ok l -> at_ e s (enc_arg_list l) ->
  at_ e (s + zlen (enc_arg_list l)) (le 4 c ++ rest) -> tail_ok c rest -> 4 <= s ->
  module_fine l rl ->
  parseDelegation (init_item 0) (zlen l) false e s = (Ret (module_item (expert e) l s 0), s).
Proof.
  intros W NW F A AT TK S4 (PT & MF). pose proof (at_bound _ _ _ W A) as B.
  pose proof (zlen_nonneg (enc_arg_list l)) as NN.
  unfold parseDelegation. change (dtype (init_item 0) =? ModuleBytes) with true. cbv iota.
  assert (M : parseDelegation_module (init_item 0) (zlen l) e s
              = (Ret (match auction_op l with
                      | Some op => (mkD 0 (special_of (Some op)) false 0 0 0 s, has "new_validator" l, true)
                      | None => (mkD 0 Generic true 0 0 0 (s - 4), has "new_validator" l, false)
                      end), s)).
  { unfold parseDelegation_module. rewrite step_get_off.
    destruct (search_try "new_validator" l e s (fun r =>
      let redelegation := match r with inl _ => true | inr _ => false end in
      d <- try (getData (str "auction") (zlen l)) ;;
      ih <- match d with
            | inl x =>
                check (snd x =? TAG_STRING) parser_unexpected_type ;;
                o <- get_off ;;
                bl <- ask blen ;;
                check ((fst x <=? 100) && (u32 (o + fst x) <=? bl)) parser_unexpected_buffer_end ;;
                ret (set_itemOffset s (init_item 0), true)
            | inr e0 =>
                if e0 =? parser_no_data then
                  w <- ask wasm ;;
                  if w : bool then fail parser_no_data
                  else ret (set_itemOffset (u32 (itemOffset (set_itemOffset s (init_item 0)) - 4)) (set_generic true (set_itemOffset s (init_item 0))), false)
                else fail e0
            end ;;
      stringLength <- readU32 ;;
      o <- get_off ;;
      bs <- mem_slice o stringLength ;;
      require (stringLength <=? 100) OobWrite ;;
      let special := if list_eqb bs (str "delegate") then Delegate
                     else if list_eqb bs (str "undelegate") then UnDelegate
                     else if list_eqb bs (str "redelegate") then ReDelegate
                     else Generic in
      set_off s ;;
      ret (set_special special (fst ih), redelegation, snd ih)) W F A) as (r & Hr & Er).
    etransitivity; [exact Hr|]. clear Hr. cbv zeta. rewrite Er. clear r Er.
    pose proof (getData_at (text "auction") l e s W F A) as G. change (str "auction") with (text "auction").
    destruct (auction_op l) as [op|] eqn:AO.
    - destruct (auction_inv _ _ AO) as (a & p & nm & Lk & Ty & Ln & Vl & Op & _).
      rewrite Lk in G. destruct G as [G Ga]. rewrite (step_try_ok _ _ _ _ _ _ G). cbn [fst snd]. rewrite Ty. cbn [tag].
      rewrite bind_assoc, step_check by reflexivity.
      assert (Av : at_ e (s + p + val_off a) (a_val a)).
      { pose proof (arg_value_at _ _ _ _ Ga) as X. apply at_app in X. tauto. }
      pose proof (at_bound _ _ _ W Av) as Bv. pose proof (zlen_nonneg (a_val a)) as Nv.
      rewrite bind_assoc, step_get_off, bind_assoc, step_ask, bind_assoc, step_check by (rewrite u32_small; lia).
      rewrite step_ret. rewrite Vl in Av, Ln, Nv, Bv. rewrite zlen_lv in *. apply at_lv in Av. destruct Av as [Av1 Av2].
      pose proof (zlen_nonneg nm).
      step (readU32_at (zlen nm) e _ W Av1 ltac:(lia)). rewrite step_get_off, (step_at _ _ nm) by (auto; lia).
      unfold require. replace (zlen nm <=? 100) with true by lia. rewrite step_ret.
      destruct (special_names nm) as [-> _]. rewrite Op. rewrite step_set_off by lia. reflexivity.
    - destruct MF as (HA & _ & _).
      assert (Lk : lookup (text "auction") l = None).
      { unfold has, find_arg in HA. destruct (lookup (text "auction") l) as [[]|]; [discriminate | reflexivity]. }
      rewrite Lk in G. rewrite (step_try_fail _ _ _ _ _ _ G).
      change (parser_no_data =? parser_no_data) with true. cbv iota.
      rewrite bind_assoc, step_ask, NW, step_ret.
      apply at_app in AT. destruct AT as [AT1 AT2]. rewrite le_length in AT2. destruct TK as [TC TE TT].
      step (readU32_at c e _ W AT1 ltac:(lia)). rewrite step_get_off.
      destruct (at_prefix e _ c rest ltac:(lia) AT2) as [AP LP].
      rewrite (step_at _ _ (firstn (Z.to_nat c) rest)) by (auto; lia).
      unfold require. replace (c <=? 100) with true by lia. rewrite step_ret.
      assert (HD : forall w, hd 0 w <> 1 -> hd 0 w <> 2 -> w <> [] -> list_eqb (firstn (Z.to_nat c) rest) w = false).
      { intros w N1 N2 NE. apply list_eqb_neq. intros <-.
        destruct (Z.to_nat c) as [|k]; [apply NE; reflexivity|]. destruct rest as [|b r]; [apply NE; reflexivity|].
        cbn [firstn hd] in *. destruct (TT b r eq_refl); contradiction. }
      rewrite !HD by discriminate. rewrite step_set_off by lia.
      cbv [ret]. apply pair_ret; [|reflexivity]. cbn [fst snd]. dcbn. rewrite u32_small by lia. reflexivity. }
  step M. unfold module_item in *.
  destruct (auction_op l) as [op|] eqn:AO; cbn [fst snd].
  - destruct (op_typed _ _ _ MF) as (T1 & T2 & T3 & T4).
    apply typed_firstn in T1, T2, T3.
    destruct (auction_inv _ _ AO) as (_ & _ & _ & _ & _ & _ & _ & _ & RD). rewrite RD.
    rewrite delegation_args_op; auto.
    + rewrite andb_true_r. unfold expert_fixed. dcbn. destruct op, (expert e); reflexivity.
    + unfold has_delegation_args. rewrite (typed_has _ _ _ T1), (typed_has _ _ _ T2), (typed_has _ _ _ T3). reflexivity.
    + dcbn. destruct op; discriminate.
    + intros R. apply (typed_firstn _ _ (Z.to_nat (op_args op))). apply T4. destruct op; [discriminate R | discriminate R | reflexivity].
  - destruct MF as (HA & TN & GR). rewrite delegation_args_generic; auto.
    + rewrite andb_false_r. unfold expert_fixed. dcbn. destruct (has "amount" l); reflexivity.
    + intros HN. apply has_typed; auto.
Qed.

Lemma module_review_inv H x w l lines :
  session_review H x (Module w l) = Some lines ->
  exists rl, module_fine l rl /\
    lines = (match auction_op l with Some _ => if x then code_review H w else [] | None => code_review H w end) ++ rl.
Proof.
  cbn [session_review]. intros R. destruct (plain_types l) eqn:PT; [|discriminate]. cbn [negb] in R.
  unfold module_fine. destruct (has "auction" l) eqn:HA.
  - destruct (auction_op l) as [op|]; [|discriminate]. apply app2_inv in R. destruct R as (c & R & ->).
    exists c; auto.
  - destruct (typed_if_present is_key_type "new_validator" l) eqn:TN; [|discriminate]. cbn [negb] in R.
    apply app2_inv in R. destruct R as (c & R & ->).
    assert (auction_op l = None) as ->.
    { unfold auction_op. unfold has in HA. destruct (find_arg (text "auction") l); [discriminate | reflexivity]. }
    exists c; auto.
Qed.

Lemma code_at w e o : wf e -> at_ e o (lv w) -> zlen w <= 32 ->
  displays render_contract_hash e o (ln "Cntrct hash" (Hex (hash e w))).
Proof.
  intros W A L. pose proof (at_bound _ _ _ W A) as B. apply at_lv in A. destruct A as [A1 A2]. rewrite zlen_lv in B. pose proof (zlen_nonneg w).
  eexists _, (o + 4). split.
  - unfold render_contract_hash. step (readU32_at (zlen w) e o W A1 ltac:(lia)). rewrite step_get_off, (step_at _ _ w) by auto.
    unfold require. replace (zlen w <=? 32) with true by lia. rewrite step_ret, step_ask.
    rewrite (printBytes_ok (hash e) (hash e w) (wf_hash e W) (wf_hashb e W w)) by (rewrite (wf_hash e W w); lia).
    rewrite step_lift. reflexivity.
  - split; reflexivity.
Qed.

Lemma module_session e o w l lines c rest :
  wf e -> wasm e = false -> zlen w <= 32 -> Forall arg_ok l ->
  at_ e o (enc_session (Module w l) ++ le 4 c ++ rest) -> tail_ok c rest ->
  session_review (hash e) (expert e) (Module w l) = Some lines ->
  session_ok e o (Module w l) lines
    (module_item (expert e) l (o + 1 + (4 + zlen w) + 4) (1 + (4 + zlen w + (4 + zlen (enc_arg_list l)))), 0).
Proof.
  intros W NW LW F A TK R. apply module_review_inv in R. destruct R as (rl & MF & ->).
  apply at_app in A. destruct A as [A AT].
  pose proof (at_bound _ _ _ W A) as B. cbn [enc_session] in *. rewrite zlen_cons, zlen_app in *.
  apply at_cons in A. destruct A as [_ A]. apply at_app in A. destruct A as [A1 A2].
  destruct (at_args _ _ _ W A2) as (RU & A3 & ZL). rewrite ZL in *. rewrite zlen_lv in *.
  pose proof (zlen_nonneg w). pose proof (zlen_nonneg (enc_arg_list l)).
  set (s := o + 1 + (4 + zlen w) + 4) in *.
  assert (AT' : at_ e (s + zlen (enc_arg_list l)) (le 4 c ++ rest)).
  { replace (s + zlen (enc_arg_list l)) with (o + (1 + (4 + zlen w + (4 + zlen (enc_arg_list l))))) by lia. exact AT. }
  set (it := module_item (expert e) l s (1 + (4 + zlen w + (4 + zlen (enc_arg_list l))))).
  assert (NR : zlen rl = UI_runtime_items it /\ 0 <= UI_runtime_items it <= 4).
  { destruct MF as [_ MF]. unfold it, module_item. destruct (auction_op l) as [op|]; dcbn.
    - rewrite (op_lines _ _ _ MF). destruct op; cbn; lia.
    - destruct MF as (_ & _ & MF). rewrite (generic_lines _ _ MF). destruct (has "amount" l); lia. }
  destruct NR as [NR NR'].
  set (fx := match auction_op l with Some _ => if expert e then code_review (hash e) w else [] | None => code_review (hash e) w end) in *.
  assert (NF : zlen fx = UI_fixed_items it).
  { unfold fx, it, module_item. destruct (auction_op l); dcbn; [destruct (expert e)|]; reflexivity. }
  assert (NF' : 0 <= UI_fixed_items it <= 2).
  { unfold it, module_item. destruct (auction_op l); dcbn; [destruct (expert e)|]; lia. }
  assert (SP : dspecial it = special_of (auction_op l)) by (unfold it, module_item; destruct (auction_op l); reflexivity).
  assert (DT : dtype it = ModuleBytes) by (unfold it, module_item; destruct (auction_op l); reflexivity).
  match goal with |- session_ok _ _ _ ?ll _ => change (session_ok e o (Module w l) ll (it, 0)) end.
  constructor; cbn [fst snd].
  - cbn [stype]. unfold parseDeployItem_session. change (0 =? ModuleBytes) with true. cbv iota.
    assert (X : parseModuleBytes_session (init_item 0) e (o + 1) = (Ret it, o + zlen (enc_session (Module w l)))).
    { unfold parseModuleBytes_session, off32. rewrite bind_assoc, step_get_off, bind_assoc, step_ask, step_ret.
      step (parse_item_at w e _ W A1). rewrite zlen_lv. step RU.
      step (module_op l rl e s c rest W NW F A3 AT' TK ltac:(lia) MF).
      step (parseRuntimeArgs_at l e s W (args_supported _ F) A3).
      step (total_at (o + 1) e (s + zlen (enc_arg_list l)) 0 ltac:(lia) ltac:(lia) ltac:(lia)).
      cbn [enc_session]. rewrite zlen_cons, zlen_app, zlen_lv, ZL.
      cbv [ret]. apply pair_ret; [|lia]. unfold it, module_item.
      destruct (auction_op l); dcbn; f_equal; lia. }
    step X. reflexivity.
  - cbn [enc_session]. rewrite zlen_cons, zlen_app, zlen_lv, ZL. unfold it, module_item. destruct (auction_op l); reflexivity.
  - lia.
  - lia.
  - rewrite zlen_app. lia.
  - rewrite zlen_app. lia.
  - intros h p Hp. unfold deploy_type_text. cbn [Deploy.payment Deploy.session]. rewrite Hp, DT, SP.
    unfold type_text. unfold it, module_item. destruct (auction_op l) as [[]|]; reflexivity.
  - intros i ln0 Hi. unfold session_item.
    assert (SPT : (dspecial it =? NativeTransfer) = false /\
       ((dspecial it =? Delegate) || (dspecial it =? UnDelegate) || (dspecial it =? ReDelegate) || (dspecial it =? Generic)) = true).
    { rewrite SP. destruct (auction_op l) as [[]|]; split; reflexivity. }
    destruct SPT as [-> ->].
    unfold displays, getItem_Delegation. rewrite step_advance by lia.
    apply nth_app in Hi. destruct Hi as [[Li Hi]|[Li Hi]].
    + replace (Z.of_nat i <? UI_fixed_items it) with true by (rewrite <- NF; unfold zlen; lia).
      unfold render_fixed_delegation_items. rewrite step_ask, DT, SP. change (ModuleBytes =? ModuleBytes) with true. cbv iota zeta.
      assert (SH : expert e || (special_of (auction_op l) =? Generic) = true).
      { unfold fx in Hi. destruct (auction_op l) as [op|]; [|rewrite orb_true_r; reflexivity].
        destruct (expert e); [reflexivity | destruct i; discriminate Hi]. }
      rewrite SH.
      assert (Hc : nth_error (code_review (hash e) w) i = Some ln0).
      { unfold fx in Hi. destruct (auction_op l); [|exact Hi]. destruct (expert e); [exact Hi | destruct i; discriminate Hi]. }
      unfold code_review in Hc. nth_split Hc; ground_eqb.
      * apply execution_at.
      * apply code_at; auto.
    + pose proof (nth_cases _ _ _ Hi) as Lj.
      assert (LF : Z.of_nat (List.length fx) = UI_fixed_items it) by exact NF.
      assert (LR : Z.of_nat (List.length rl) = UI_runtime_items it) by exact NR.
      replace (Z.of_nat i <? UI_fixed_items it) with false by lia.
      rewrite step_set_off by (unfold it, module_item; destruct (auction_op l); dcbn; lia).
      rewrite u8_small by lia. rewrite step_check by lia.
      replace (Z.of_nat i - UI_fixed_items it) with (Z.of_nat (i - List.length fx)) by lia.
      destruct MF as [PT MF]. rewrite DT. change (ModuleBytes =? ModuleBytes) with true.
      assert (DG : dgeneric it = match auction_op l with Some _ => false | None => true end)
        by (unfold it, module_item; destruct (auction_op l); reflexivity).
      rewrite DG.
      destruct (auction_op l) as [op|] eqn:AO.
      * rewrite step_ret.
        assert (IO : itemOffset it = s) by (unfold it, module_item; rewrite AO; reflexivity). rewrite IO.
        assert (RT : UI_runtime_items it = zlen (firstn (Z.to_nat (op_args op)) l)).
        { unfold it, module_item; rewrite AO; dcbn. pose proof (op_enough _ _ _ MF) as OE.
          unfold zlen in *. rewrite firstn_length in *. destruct op; cbn [op_args] in *; lia. }
        rewrite RT. apply (op_items op (firstn (Z.to_nat (op_args op)) l) rl it e s _ ln0 W); auto.
        -- apply Forall_forall. intros a Ha. rewrite Forall_forall in F. apply F.
           rewrite <- (firstn_skipn (Z.to_nat (op_args op)) l). apply in_or_app; auto.
        -- apply at_firstn; auto.
      * destruct MF as (_ & _ & MF).
        assert (IO : itemOffset it = o + 1 + (4 + zlen w)) by (unfold it, module_item; rewrite AO; dcbn; lia).
        apply (generic_items l rl it e (i - List.length fx) ln0 W F); auto.
        -- rewrite IO. exact A2.
        -- unfold it, module_item; rewrite AO; reflexivity.
Qed.
