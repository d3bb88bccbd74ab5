(** The items of a TransactionV1 review. *)
From Verif Require Import Base Zxlib Crypto Utils RuntimeArg Deploy DeployUI TxV1 TxV1UI Parser BaseFacts Spec SpecText SpecDeploy SpecTx Exec ArgsFacts ReaderFacts TextFacts Shows DeployArgs SessionFacts ReviewFacts TxFacts TxBody.
Import S ST SD SX.

(** The display value [d] presents [v]. *)
Definition xrenders (H : list Z -> list Z) (tf : Z -> option (list Z)) (v : xview) (d : dval) : Prop :=
  match v with
  | V v => renders H tf v d
  | Count n => exists s, decimal n s /\ d = VDirect s
  | Grouped n => exists s, decimal n s /\ d = VPaged (group s)
  | ByteDigits bs => exists parts, Forall2 decimal bs parts /\ d = VPaged (List.concat parts)
  end.
Definition xshows (H : list Z -> list Z) (tf : Z -> option (list Z)) (l : xline) (it : item) : Prop :=
  ikey it = fst l /\ xrenders H tf (snd l) (ival it).
Definition xdisplays (p : P item) (e : env) (o : Z) (l : xline) : Prop :=
  exists it o', p e o = (Ret it, o') /\ xshows (hash e) (timefmt e) l it.

Lemma xdisplays_of p e o lab v : displays p e o (lab, v) -> xdisplays p e o (lab, V v).
Proof. intros (it & o' & E & K & R). exists it, o'. split; [exact E | split; [exact K | exact R]]. Qed.

Lemma separators_ok s : zlen s <= 19 -> s <> [] -> add_thousand_separators 30 s = Ret (group s).
Proof.
  intros L N.
  do 20 (destruct s as [|? s]; [first [contradiction | reflexivity]|]).
  rewrite !zlen_cons in L. pose proof (zlen_nonneg s). lia.
Qed.

Lemma decimal_bytes bs : bytes bs -> exists parts, Forall2 decimal bs parts /\ List.concat parts = flat_map dec bs.
Proof.
  intros B. induction B as [|b bs Hb B IH]; [exists []; split; [constructor | reflexivity]|].
  destruct IH as (parts & F & E). exists (dec b :: parts). split; [constructor; auto; apply dec_decimal; unfold byte in Hb; lia|].
  cbn [List.concat flat_map]. rewrite E. reflexivity.
Qed.
Lemma dec_byte_len b : 0 <= b < 256 -> zlen (dec b) <= 3.
Proof. intros H. apply (dec_len b 3); cbn; lia. Qed.
Lemma flat_dec_len bs : bytes bs -> zlen (flat_map dec bs) <= 3 * zlen bs.
Proof.
  intros B. induction B as [|b bs Hb B IH]; [cbn; lia|]. cbn [flat_map]. rewrite zlen_app, zlen_cons.
  pose proof (dec_byte_len b Hb). lia.
Qed.
Lemma firstn_whole {A} n (l : list A) : zlen l <= n -> firstn (Z.to_nat n) l = l.
Proof. intros H. apply firstn_all2. unfold zlen in H. lia. Qed.
Lemma hash_decimal_at h e o o1 : wf e -> at_ e o h -> zlen h = 32 -> xdisplays (show_hash_decimal o) e o1 (text "Address", ByteDigits h).
Proof.
  intros W A L. pose proof (slice_bytes _ _ _ _ (wf_bytes e W) A) as B.
  destruct (decimal_bytes h B) as (parts & F & E). unfold show_hash_decimal.
  eexists _, o1. split.
  - rewrite (step_at _ _ _ _ _ _ A) by lia. reflexivity.
  - split; [reflexivity|]. cbn [snd ival xrenders]. exists parts. split; auto. unfold parser_printByHashAddress.
    change 99%nat with (Z.to_nat 99). rewrite firstn_whole by (pose proof (flat_dec_len h B); lia). rewrite E. reflexivity.
Qed.
Lemma vtext_at lab n e o o1 : wf e -> at_ e o n -> good_name 99 n -> xdisplays (show_text lab o (zlen n)) e o1 (xl lab (Text n)).
Proof.
  intros W A [L N]. change (S.len n) with (zlen n) in L. pose proof (at_bound _ _ _ W A) as B. pose proof (zlen_nonneg n).
  eexists _, o1. split.
  - unfold show_text, text_at. rewrite bind_assoc, step_ask. rewrite (wf_len e W) in B.
    unfold at_, slice in A. replace ((0 <=? o) && (0 <=? zlen n) && (o + zlen n <=? zlen (mem e))) with true in A by lia.
    injection A as A. replace (0 <=? o) with true by lia.
    unfold int_of_u32. replace (zlen n <? 2147483648) with true by lia.
    assert (LS : zlen (skipn (Z.to_nat o) (mem e)) = zlen (mem e) - o) by (unfold zlen in *; rewrite skipn_length; lia).
    rewrite LS. replace ((0 <=? zlen n) && (zlen n <=? zlen (mem e) - o)) with true by lia.
    rewrite A, cstr_id by auto. change 99%nat with (Z.to_nat 99). rewrite firstn_whole by lia. reflexivity.
  - split; reflexivity.
Qed.

(** * Arguments of native operations *)
Lemma getData_more key l k e o p a :
  wf e -> Forall arg_ok l -> at_ e o (enc_arg_list l) -> lookup key l = Some (p, a) -> zlen l <= k ->
  getData key k e o = (Ret (zlen (a_val a), tag (a_ty a)), o + p + val_off a).
Proof.
  intros W F A L K. pose proof (getData_iter key l e o W F A) as X. rewrite L in X. destruct X as [X _].
  assert (Y : loop k (getData_body key) tt e o = (Ret (Done (zlen (a_val a), tag (a_ty a))), o + p + val_off a)).
  { rewrite loop_iter. replace (Z.to_nat k) with (List.length l + (Z.to_nat k - List.length l))%nat by (unfold zlen in K; lia).
    rewrite iter_loop_plus. step X. reflexivity. }
  unfold getData. step Y. reflexivity.
Qed.
Lemma show_arg_more lab name l ln0 e o k :
  wf e -> Forall arg_ok l -> at_ e o (enc_arg_list l) -> zlen l <= k ->
  any_arg lab name l = Some ln0 -> displays (show_arg (str lab) (str name) k) e o ln0.
Proof.
  intros W F A K X. apply want_inv in X; destruct X as (p & a & v & Lk & V & ->). apply only_inv in V; destruct V as [_ V].
  pose proof (getData_more _ _ _ _ _ _ _ W F A Lk K) as G.
  pose proof (getData_at (text name) l e o W F A) as Ga. rewrite Lk in Ga. destruct Ga as [_ Ga].
  destruct (display_arg_at _ _ _ _ _ W (arg_value_at _ _ _ _ Ga) V) as (d & o' & D & R).
  exists (mkItem (str lab) d), o'. split.
  - unfold show_arg. change (str name) with (text name). step G. cbn [fst snd]. step D. reflexivity.
  - split; [reflexivity | exact R].
Qed.

(** The items [f 0, f 1, ...] run at [s] show the lines [ls]. *)
Definition shown_all (f : Z -> P item) (e : env) (s : Z) (ls : list line) : Prop :=
  forall i l, nth_error ls i = Some l -> displays (f (Z.of_nat i)) e s l.

Lemma has_inv name l : has name l = true -> exists p a, lookup (text name) l = Some (p, a).
Proof. unfold has, find_arg. destruct (lookup (text name) l) as [[p a]|]; [eauto | discriminate]. Qed.
Lemma hasnt_inv name l : has name l = false -> lookup (text name) l = None.
Proof. unfold has, find_arg. destruct (lookup (text name) l) as [[p a]|]; [discriminate | auto]. Qed.

Lemma step_exists {B} name l (k : bool -> P B) e s :
  wf e -> Forall arg_ok l -> at_ e s (enc_arg_list l) ->
  bind (exists_arg s name (zlen l)) k e s = k (has name l) e s.
Proof.
  intros W F A. pose proof (at_bound _ _ _ W A) as Bd. pose proof (zlen_nonneg (enc_arg_list l)).
  pose proof (getData_at (text name) l e s W F A) as G. unfold exists_arg. rewrite bind_assoc. change (str name) with (text name).
  unfold has, find_arg. destruct (lookup (text name) l) as [[p a]|].
  - destruct G as [G _]. rewrite (step_try_ok _ _ _ _ _ _ G). rewrite bind_assoc, step_set_off by lia. reflexivity.
  - rewrite (step_try_fail _ _ _ _ _ _ G). change (parser_no_data =? parser_no_data) with true. cbv iota.
    rewrite bind_assoc, step_set_off by lia. reflexivity.
Qed.

Section ops.
Variables (e : env) (s : Z) (l : list arg).
Hypotheses (W : wf e) (F : Forall arg_ok l) (A : at_ e s (enc_arg_list l)).

Lemma s_arg lab name ln0 : any_arg lab name l = Some ln0 -> displays (show_arg (str lab) (str name) (zlen l)) e s ln0.
Proof. apply show_arg_at; auto. Qed.
Lemma s_amount ln0 : u512_arg "Amount" "amount" l = Some ln0 -> displays (show_motes (str "Amount") (str "amount") (zlen l)) e s ln0.
Proof. apply show_motes_at; auto. Qed.

(** an item after a check of its index *)
Lemma step_index {B} (i : nat) n code (k : unit -> P B) o : Z.of_nat i < n -> bind (check (Z.of_nat i <? n) code) k e o = k tt e o.
Proof. intros H. rewrite step_check by lia. reflexivity. Qed.

Ltac solve_item := first [apply s_arg; assumption | apply s_amount; assumption].
Ltac item H := unfold displays in *; rewrite step_index by (rewrite ?H; lia); ground_eqb; solve_item.

Lemma bid_items ls : op_arity NAddBid l = true -> all (op_lines (hash e) (expert e) NAddBid l) = Some ls ->
  zlen ls = zlen l /\ shown_all (getItem_AddBid (zlen l)) e s ls.
Proof.
  cbn [op_arity op_lines]. change (S.len l) with (zlen l). intros N H.
  destruct (has "reserved_slots" l); cbn [app] in H; all_inv H; (split; [rewrite !zlen_cons; change (zlen (@nil line)) with 0; lia|]);
    intros i x Hi; nth_split Hi; unfold getItem_AddBid, displays; rewrite step_index by lia; ground_eqb; solve_item.
Qed.
Lemma withdraw_items ls : op_arity NWithdrawBid l = true -> all (op_lines (hash e) (expert e) NWithdrawBid l) = Some ls ->
  zlen ls = zlen l /\ shown_all (getItem_WithdrawBid (zlen l)) e s ls.
Proof.
  cbn [op_arity op_lines]. change (S.len l) with (zlen l). intros N H.
  all_inv H; (split; [rewrite !zlen_cons; change (zlen (@nil line)) with 0; lia|]);
    intros i x Hi; nth_split Hi; unfold getItem_WithdrawBid, displays; rewrite step_index by lia; ground_eqb; solve_item.
Qed.
Lemma delegate_items n ls : n = NDelegate \/ n = NUndelegate -> op_arity n l = true -> all (op_lines (hash e) (expert e) n l) = Some ls ->
  zlen ls = zlen l /\ shown_all (getItem_Delegate (zlen l)) e s ls.
Proof.
  intros [-> | ->]; cbn [op_arity op_lines]; change (S.len l) with (zlen l); intros N H;
  all_inv H; (split; [rewrite !zlen_cons; change (zlen (@nil line)) with 0; lia|]);
    intros i x Hi; nth_split Hi; unfold getItem_Delegate, displays; rewrite step_index by lia; ground_eqb; solve_item.
Qed.
Lemma activate_items ls : op_arity NActivateBid l = true -> all (op_lines (hash e) (expert e) NActivateBid l) = Some ls ->
  zlen ls = zlen l /\ shown_all (getItem_ActivateBid (zlen l)) e s ls.
Proof.
  cbn [op_arity op_lines]. change (S.len l) with (zlen l). intros N H.
  all_inv H; (split; [rewrite !zlen_cons; change (zlen (@nil line)) with 0; lia|]);
    intros i x Hi; nth_split Hi; unfold getItem_ActivateBid, displays; rewrite step_index by lia; ground_eqb; solve_item.
Qed.
Lemma change_items ls : op_arity NChangeKey l = true -> all (op_lines (hash e) (expert e) NChangeKey l) = Some ls ->
  zlen ls = zlen l /\ shown_all (getItem_ChangePublicKey (zlen l)) e s ls.
Proof.
  cbn [op_arity op_lines]. change (S.len l) with (zlen l). intros N H.
  all_inv H; (split; [rewrite !zlen_cons; change (zlen (@nil line)) with 0; lia|]);
    intros i x Hi; nth_split Hi; unfold getItem_ChangePublicKey, displays; rewrite step_index by lia; ground_eqb; solve_item.
Qed.
Lemma redelegate_items ls : op_arity NRedelegate l = true -> all (op_lines (hash e) (expert e) NRedelegate l) = Some ls ->
  zlen ls = zlen l /\ shown_all (getItem_Redelegate (zlen l)) e s ls.
Proof.
  cbn [op_arity op_lines]. change (S.len l) with (zlen l). intros N H.
  destruct (has "delegator" l) eqn:H1; destruct (has "validator" l) eqn:H2; destruct (has "amount" l) eqn:H3; cbn [app] in H;
  all_inv H; (split; [rewrite !zlen_cons; change (zlen (@nil line)) with 0; lia|]);
    intros i x Hi; nth_split Hi; unfold getItem_Redelegate, displays; rewrite step_get_off, step_index by lia;
    rewrite !step_exists by auto; rewrite H1, H2, H3; cbn [andb]; ground_eqb; solve_item.
Qed.
Lemma getData_try name p a {B} (k : (Z * Z) + Z -> P B) : lookup (text name) l = Some (p, a) ->
  bind (try (getData (str name) (zlen l))) k e s = k (inl (zlen (a_val a), tag (a_ty a))) e (s + p + val_off a).
Proof.
  intros L. pose proof (getData_at (text name) l e s W F A) as G. rewrite L in G. destruct G as [G _].
  change (str name) with (text name). apply (step_try_ok _ _ _ _ _ _ G).
Qed.
Lemma getData_none name {B} (k : (Z * Z) + Z -> P B) : lookup (text name) l = None ->
  exists o', bind (try (getData (str name) (zlen l))) k e s = k (inr parser_no_data) e o'.
Proof.
  intros L. pose proof (getData_at (text name) l e s W F A) as G. rewrite L in G.
  change (str name) with (text name). eexists. apply (step_try_fail _ _ _ _ _ _ G).
Qed.
Lemma from_item name lab p a ln0 : lookup (text name) l = Some (p, a) -> any_arg lab name l = Some ln0 ->
  displays (v <- display_runtimeArg (tag (a_ty a)) (zlen (a_val a)) ;; ret (mkItem (str lab) v)) e (s + p + val_off a) ln0.
Proof.
  intros L X. apply want_inv in X; destruct X as (p' & a' & v & Lk & V & ->). apply only_inv in V; destruct V as [_ V].
  rewrite L in Lk. injection Lk as <- <-.
  pose proof (getData_at (text name) l e s W F A) as G. rewrite L in G. destruct G as [_ Ga].
  destruct (display_arg_at _ _ _ _ _ W (arg_value_at _ _ _ _ Ga) V) as (d & o' & D & R).
  exists (mkItem (str lab) d), o'. split; [step D; reflexivity | split; [reflexivity | exact R]].
Qed.

Lemma burn_items ls : op_arity NBurn l = true -> all (op_lines (hash e) (expert e) NBurn l) = Some ls ->
  zlen ls = zlen l /\ shown_all (getItem_Burn (zlen l)) e s ls.
Proof.
  pose proof (at_bound _ _ _ W A) as Bd. pose proof (zlen_nonneg (enc_arg_list l)).
  cbn [op_arity op_lines]. change (S.len l) with (zlen l). intros N H0.
  all_inv H0; (split; [rewrite !zlen_cons; change (zlen (@nil line)) with 0; lia|]).
  match goal with Q : any_arg "Source" "source" l = Some _ |- _ => pose proof Q as V' end. apply want_inv in V'. destruct V' as (p & a & v & Lk & _ & _).
  intros i x Hi; nth_split Hi; unfold getItem_Burn, displays; rewrite step_get_off, step_index by lia;
    rewrite (getData_try "source" p a _ Lk); cbn [fst snd]; ground_eqb.
  - apply (from_item "source" "Source" p a); auto.
  - rewrite step_set_off by lia. solve_item.
Qed.
Lemma transfer_items ls : op_arity NTransfer l = true -> all (op_lines (hash e) (expert e) NTransfer l) = Some ls ->
  zlen ls = (if expert e then zlen l else 2) /\ shown_all (getItem_txV1_Transfer (zlen l)) e s ls.
Proof.
  pose proof (at_bound _ _ _ W A) as Bd. pose proof (zlen_nonneg (enc_arg_list l)).
  cbn [op_arity op_lines]. change (S.len l) with (zlen l). intros N H0.
  destruct (expert e) eqn:X.
  - destruct (has "source" l) eqn:Hs; cbn [app] in H0; all_inv H0; (split; [rewrite !zlen_cons; change (zlen (@nil line)) with 0; lia|]).
    + destruct (has_inv _ _ Hs) as (p & a & Lk).
      intros i x Hi; nth_split Hi; unfold getItem_txV1_Transfer, displays; rewrite step_get_off, step_index by lia;
        rewrite step_ask, X; rewrite (getData_try "source" p a _ Lk); cbn [fst snd]; ground_eqb;
        [apply (from_item "source" "From" p a); auto | ..]; rewrite step_set_off by lia; cbn [andb]; solve_item.
    + pose proof (hasnt_inv _ _ Hs) as Lk.
      intros i x Hi; nth_split Hi; unfold getItem_txV1_Transfer, displays; rewrite step_get_off, step_index by lia;
        rewrite step_ask, X;
        match goal with |- context [bind (try (getData (str "source") (zlen l))) ?k e s] => destruct (getData_none "source" k Lk) as (o1 & ->) end;
        change (parser_no_data =? parser_no_data) with true; cbv iota; rewrite step_set_off by lia; ground_eqb; cbn [andb]; solve_item.
  - all_inv H0. split; [reflexivity|]. assert (3 <= zlen l) by (destruct (has "source" l); lia).
    intros i x Hi; nth_split Hi; unfold getItem_txV1_Transfer, displays; rewrite step_get_off, step_index by lia;
      rewrite step_ask, X; ground_eqb; solve_item.
Qed.

Lemma vector_inv H ll lh name ls : all (vector H ll lh name l) = Some ls ->
  exists p a, lookup (text name) l = Some (p, a) /\ value (firstn 4 (a_val a)) < 256 /\ 4 <= zlen (a_val a) /\
  ls = [ln ll (Number (value (firstn 4 (a_val a)))); ln lh (Hex (H (a_val a)))].
Proof.
  unfold vector, find_arg. destruct (lookup (text name) l) as [[p a]|]; [|discriminate]. change (S.len (a_val a)) with (zlen (a_val a)).
  destruct (_ && _) eqn:C; [|discriminate]. cbn [all]. intros E. exists p, a. split; auto. split; [lia|]. split; [lia|]. congruence.
Qed.
Lemma first_byte_at p a : at_ e (s + p) (enc_arg a) -> 4 <= zlen (a_val a) -> value (firstn 4 (a_val a)) < 256 ->
  forall lab o, displays (show_first_byte lab (s + p + val_off a)) e o (ln lab (Number (value (firstn 4 (a_val a))))).
Proof.
  intros Ga L V lab o. pose proof (arg_value_at _ _ _ _ Ga) as Av. apply at_app in Av. destruct Av as [Av _].
  pose proof (slice_bytes _ _ _ _ (wf_bytes e W) Av) as B.
  destruct (a_val a) as [|b0 r]; [change (zlen (@nil Z)) with 0 in L; lia|].
  apply at_cons in Av. destruct Av as [R _]. change (firstn 4 (b0 :: r)) with (b0 :: firstn 3 r) in *. rewrite value_cons in *.
  inversion B as [|? ? B0 Br]; subst. unfold byte in B0.
  assert (Bf : bytes (firstn 3 r)) by (rewrite <- (firstn_skipn 3 r) in Br; apply bytes_app in Br; tauto).
  pose proof (value_bound _ Bf) as Vb. assert (E : b0 + 256 * value (firstn 3 r) = b0) by lia. rewrite E.
  eexists _, o. split; [unfold show_first_byte; rewrite (step_mem_at _ _ _ _ _ R); reflexivity|].
  split; [reflexivity|]. exists (dec b0). split; [apply dec_decimal; lia | reflexivity].
Qed.
Lemma value_hash_at p a : at_ e (s + p) (enc_arg a) ->
  forall lab o, displays (show_value_hash lab (s + p + val_off a) (zlen (a_val a))) e o (ln lab (Hex (hash e (a_val a)))).
Proof.
  intros Ga lab o. pose proof (arg_value_at _ _ _ _ Ga) as Av. apply at_app in Av. destruct Av as [Av _].
  eexists _, o. split.
  - unfold show_value_hash. rewrite (step_at _ _ _ _ _ _ Av) by reflexivity. rewrite step_ask.
    rewrite printBytes_ok; [rewrite step_lift; reflexivity | ..]; try apply (wf_hash e W).
    + apply (wf_hashb e W).
    + rewrite (wf_hash e W). lia.
  - split; reflexivity.
Qed.
Lemma reservations_items ls : op_arity NAddReservations l = true -> all (op_lines (hash e) (expert e) NAddReservations l) = Some ls ->
  zlen ls = 2 /\ shown_all getItem_AddReservations e s ls.
Proof.
  cbn [op_arity op_lines]. change (S.len l) with (zlen l). intros N H.
  apply vector_inv in H. destruct H as (p & a & Lk & V & L & ->). split; [reflexivity|].
  pose proof (getData_more _ _ 2 _ _ _ _ W F A Lk ltac:(lia)) as G.
  pose proof (getData_at (text "reservations") l e s W F A) as Ga. rewrite Lk in Ga. destruct Ga as [_ Ga].
  intros i x Hi; nth_split Hi; unfold getItem_AddReservations, displays; rewrite step_index by lia; change (str "reservations") with (text "reservations");
    step G; rewrite step_get_off; ground_eqb.
  - apply first_byte_at; auto.
  - cbn [fst]. apply value_hash_at; auto.
Qed.
Lemma cancel_items ls : op_arity NCancelReservations l = true -> all (op_lines (hash e) (expert e) NCancelReservations l) = Some ls ->
  zlen ls = 3 /\ shown_all getItem_CancelReservations e s ls.
Proof.
  cbn [op_arity op_lines]. change (S.len l) with (zlen l). intros N H.
  apply all_cons in H. destruct H as (l0 & s0 & V0 & H & ->).
  apply vector_inv in H. destruct H as (p & a & Lk & V & L & ->). split; [reflexivity|].
  pose proof (getData_more _ _ 3 _ _ _ _ W F A Lk ltac:(lia)) as G.
  pose proof (getData_at (text "delegators") l e s W F A) as Ga. rewrite Lk in Ga. destruct Ga as [_ Ga].
  intros i x Hi; nth_split Hi; unfold getItem_CancelReservations, displays; rewrite step_index by lia; change (str "delegators") with (text "delegators"); ground_eqb.
  - apply show_arg_more with (l := l); auto. lia.
  - step G; rewrite step_get_off. apply first_byte_at; auto.
  - step G; rewrite step_get_off. cbn [fst]. apply value_hash_at; auto.
Qed.
End ops.
