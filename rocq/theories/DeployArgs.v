(** The argument checks of the deploy parser and the argument hash, run on
    encoded argument lists. *)
From Verif Require Import Base Zxlib Crypto Utils RuntimeArg Deploy DeployUI BaseFacts Spec SpecText SpecDeploy Exec ArgsFacts ReaderFacts TextFacts Shows.
Import S ST SD.

(** * Conditions on types *)
(** [cond] on the tags read is [ok] on the type. *)
Definition decides (cond : Z -> Z -> bool) (ok : cltype -> bool) : Prop :=
  forall a t, typed a t -> supported (a_ty a) = true -> cond (fst t) (snd t) = ok (a_ty a).

Ltac split_tag g := destruct g as [|g|g]; try reflexivity; repeat (destruct g as [g|g|]; try reflexivity).

Lemma decides_tag1 k ok :
  (forall g, ok (Prim g) = (g =? k)) -> (prim_tag k || (k =? 21)) = true ->
  (forall t, (match t with Prim _ => false | _ => true end) = true -> ok t = false) ->
  decides (fun t _ => t =? k) ok.
Proof.
  intros H Pk Hn a t [T _] Sp. rewrite T. destruct (a_ty a) eqn:E; cbn [tag]; try (rewrite Hn by reflexivity; unfold prim_tag in Pk; lia).
  rewrite H; reflexivity.
Qed.
Lemma decides_u512 : decides is_u512 (fun t => match t with Prim 8 => true | _ => false end).
Proof.
  apply decides_tag1; [|reflexivity|].
  - intros g; split_tag g.
  - intros t Ht; destruct t; try discriminate; reflexivity.
Qed.
Lemma decides_pubkey : decides is_pubkey is_key_type.
Proof.
  apply decides_tag1; [|reflexivity|].
  - intros g; split_tag g.
  - intros t Ht; destruct t; try discriminate; reflexivity.
Qed.
Lemma decides_amount : decides is_u512_or_u32 is_amount_type.
Proof.
  intros a t [T _] Sp. unfold is_u512_or_u32, TAG_U512, TAG_U32. rewrite T.
  destruct (a_ty a) as [g| | | | | | | |]; try reflexivity. cbn [tag]. split_tag g.
Qed.
Lemma decides_account : decides is_account is_account_type.
Proof.
  intros a t [T _] Sp. unfold is_account, TAG_KEY, TAG_UREF, TAG_BYTE_ARRAY, TAG_PUBLIC_KEY. rewrite T.
  destruct (a_ty a) as [g| | | | | | | |]; try reflexivity. cbn [tag].
  assert (g <> 15) by (cbn [supported supported1] in Sp; unfold prim_tag in Sp; lia).
  replace (g =? 15) with false by lia. rewrite orb_false_r. split_tag g.
Qed.
Lemma decides_id : decides is_id is_id_type.
Proof.
  intros a t [T U] Sp. unfold is_id, TAG_OPTION, TAG_U64. rewrite T.
  destruct (a_ty a) as [g|b| | | | | | |] eqn:E; cbn [tag]; try reflexivity.
  - assert (g <> 13) by (cbn [supported supported1] in Sp; unfold prim_tag in Sp; lia).
    replace (g =? 13) with false by lia. cbn [andb orb]. split_tag g.
  - rewrite (U (tag b)) by reflexivity. cbn [supported supported1] in Sp. cbn [Z.eqb Pos.eqb andb orb].
    rewrite orb_false_r. destruct b as [g| | | | | | | |]; try discriminate Sp;
      cbn [tag]; [split_tag g | reflexivity].
Qed.

(** * The checks *)
Section Checks.
Context (e : env) (W : wf e) (l : list arg) (F : Forall arg_ok l) (o : Z) (A : at_ e o (enc_arg_list l)).

Lemma find_supported n a : find_arg n l = Some a -> supported (a_ty a) = true.
Proof using F.
  unfold find_arg. clear A W. induction F as [|b r Hb Hr IH]; cbn [lookup]; [discriminate|].
  destruct (list_eq_dec Z.eq_dec (a_name b) n).
  - intros X; inversion X; subst; apply Hb.
  - intros X; apply IH; auto. destruct (lookup n r) as [[p c]|]; auto.
Qed.

Lemma CHECK_at name cond ok : decides cond ok ->
  CHECK_RUNTIME_ARGTYPE (zlen l) (str name) cond e o
  = match find_arg (text name) l with
    | Some a => if ok (a_ty a) then (Ret tt, o) else (Fail parser_unexpected_type, o)
    | None => (Fail parser_runtimearg_notfound, o)
    end.
Proof using W F A.
  intros D. unfold CHECK_RUNTIME_ARGTYPE. change (str name) with (text name).
  pose proof (search_at (text name) l e o W F A) as X.
  destruct (find_arg (text name) l) as [a|] eqn:E.
  - destruct X as (t & T & X). step X. rewrite (D _ _ T) by (eapply find_supported; eauto).
    unfold check. destruct (ok (a_ty a)); reflexivity.
  - apply (bind_Fail _ _ _ _ _ _ X).
Qed.

Lemma COUNT_at name cond ok found : decides cond ok ->
  COUNT_RUNTIME_ARGTYPE (zlen l) (str name) cond found e o
  = match find_arg (text name) l with
    | Some a => if ok (a_ty a) then (Ret (inl (u16 (found + 1))), o) else (Ret (inr tt), o)
    | None => (Ret (inl found), o)
    end.
Proof using W F A.
  intros D. unfold COUNT_RUNTIME_ARGTYPE. change (str name) with (text name).
  pose proof (search_at (text name) l e o W F A) as X.
  destruct (find_arg (text name) l) as [a|] eqn:E.
  - destruct X as (t & T & X). rewrite (step_try_ok _ _ _ _ _ _ X).
    rewrite (D _ _ T) by (eapply find_supported; eauto).
    destruct (ok (a_ty a)); reflexivity.
  - rewrite (step_try_fail _ _ _ _ _ _ X). reflexivity.
Qed.

(** present, with an admitted type *)
Definition typed_ok (ok : cltype -> bool) (name : string) (m : list arg) : Prop :=
  exists a, find_arg (text name) m = Some a /\ ok (a_ty a) = true.

Lemma CHECK_ok name cond ok : decides cond ok -> typed_ok ok name l ->
  CHECK_RUNTIME_ARGTYPE (zlen l) (str name) cond e o = (Ret tt, o).
Proof using W F A.
  intros D (a & E & T). rewrite (CHECK_at _ _ _ D), E, T. reflexivity.
Qed.
Lemma COUNT_ok name cond ok found : decides cond ok -> typed_ok ok name l ->
  COUNT_RUNTIME_ARGTYPE (zlen l) (str name) cond found e o = (Ret (inl (u16 (found + 1))), o).
Proof using W F A.
  intros D (a & E & T). rewrite (COUNT_at _ _ _ _ D), E, T. reflexivity.
Qed.
End Checks.

Lemma has_typed ok name l : has name l = true -> typed_if_present ok name l = true -> typed_ok ok name l.
Proof.
  unfold has, typed_if_present, typed_ok. destruct (find_arg (text name) l) as [a|]; [eauto | discriminate].
Qed.
Lemma want_typed ok vw lab name l ln0 : want (only ok vw) lab name l = Some ln0 -> typed_ok ok name l.
Proof.
  unfold want, typed_ok. destruct (find_arg (text name) l) as [a|]; [|discriminate].
  unfold only. destruct (ok (a_ty a)) eqn:E; [eauto | discriminate].
Qed.
Lemma typed_has ok name l : typed_ok ok name l -> has name l = true.
Proof. intros (a & E & _). unfold has; rewrite E; reflexivity. Qed.

Lemma find_app n p q a : find_arg n p = Some a -> find_arg n (p ++ q) = Some a.
Proof.
  unfold find_arg. induction p as [|b p IH]; cbn [lookup app]; [discriminate|].
  destruct (list_eq_dec Z.eq_dec (a_name b) n); auto.
  destruct (lookup n p) as [[k c]|]; [|discriminate].
  intros X; specialize (IH X). destruct (lookup n (p ++ q)) as [[k' c']|]; auto.
Qed.
Lemma find_firstn n k l a : find_arg n (firstn k l) = Some a -> find_arg n l = Some a.
Proof. intros H. rewrite <- (firstn_skipn k l). apply find_app; auto. Qed.
Lemma typed_firstn ok name k l : typed_ok ok name (firstn k l) -> typed_ok ok name l.
Proof. intros (a & E & T). exists a; split; auto. eapply find_firstn; eauto. Qed.

Lemma find_name n l a : find_arg n l = Some a -> In n (List.map a_name l).
Proof.
  unfold find_arg. induction l as [|b l IH]; cbn [lookup List.map]; [discriminate|].
  destruct (list_eq_dec Z.eq_dec (a_name b) n) as [E|E]; [left; auto|].
  intros X; right; apply IH. destruct (lookup n l) as [[k c]|]; auto; discriminate.
Qed.
(** Distinct names present: at least that many arguments. *)
Lemma names_count names l :
  NoDup names -> Forall (fun n => find_arg n l <> None) names -> zlen names <= zlen l.
Proof.
  intros N F. unfold zlen. rewrite <- (map_length a_name l).
  apply inj_le. apply NoDup_incl_length; auto.
  intros n Hn. rewrite Forall_forall in F. specialize (F n Hn).
  destruct (find_arg n l) as [a|] eqn:E; [eapply find_name; eauto | contradiction].
Qed.

(** * The argument hash *)
Lemma cep57_no_nul cs bs : bytes bs -> ~ In 0 (cep57 cs bs).
Proof.
  intros B. unfold cep57. generalize 0 at 2 as k.
  assert (N : Forall (fun n => 0 <= n < 16) (nibbles bs)).
  { unfold nibbles. induction B as [|b r Hb _ IH]; [constructor|]. cbn [flat_map app]. unfold byte in Hb.
    constructor; [lia|]. constructor; [lia | exact IH]. }
  induction N as [|n r Hn _ IH]; intros k; cbn [hex_cased]; [auto|].
  destruct (n <? 10) eqn:En; [|destruct (bit cs k)]; (intros [X|X]; [lia | eapply IH; eauto]).
Qed.

Lemma args_hash_at lab l e o :
  wf e -> Forall arg_ok l -> at_ e o (enc_args l) -> zlen (str lab) < 35 -> ~ In 0 (str lab) ->
  exists it, args_hash o (zlen l) (str lab) e (o + 4) = (Ret it, o + zlen (enc_args l)) /\
             shows (hash e) (timefmt e) (ln "Args hash" (ArgsHash (text lab) (enc_args l))) it.
Proof.
  intros W F A L NZ.
  pose proof (at_bound _ _ _ W A) as B.
  assert (A2 : at_ e (o + 4) (enc_arg_list l)).
  { unfold enc_args in A. apply at_app in A. rewrite le_length in A. apply A. }
  assert (ZL : zlen (enc_args l) = 4 + zlen (enc_arg_list l)) by (unfold enc_args; rewrite zlen_app, le_length; reflexivity).
  pose proof (zlen_nonneg (enc_arg_list l)).
  assert (Sp : Forall (fun a => supported (a_ty a) = true) l).
  { eapply Forall_impl; [|exact F]. intros a Ha; apply Ha. }
  eexists. split.
  - unfold args_hash. step (parseRuntimeArgs_at l e (o + 4) W Sp A2).
    rewrite step_get_off, step_set_off by lia.
    rewrite u32_small by lia.
    replace (o + 4 + zlen (enc_arg_list l) - o) with (zlen (enc_args l)) by lia.
    unfold showRuntimeArgsHash. rewrite !bind_assoc, step_get_off, bind_assoc, (step_at _ _ (enc_args l)) by auto.
    rewrite bind_assoc, step_ask, bind_assoc, step_check by lia.
    pose proof (wf_hash e W (enc_args l)) as HL. pose proof (wf_hashb e W (enc_args l)) as HB.
    unfold encode_hex. rewrite HL. unfold BLAKE2B_256_SIZE. cbn [Z.ltb Z.mul Pos.mul Z.compare Pos.compare Pos.compare_cont orb].
    assert (EL : encode_loop (hash e (enc_args l)) (bytes_to_nibbles (hash e (enc_args l))) 0 0
                 = Ret (cep57 (hash e (enc_args l)) (hash e (enc_args l)))).
    { pose proof (encode_ok (fun _ => hash e (enc_args l)) (hash e (enc_args l)) ltac:(intros; exact HL) HB ltac:(lia)) as X.
      unfold encode in X. rewrite HL in X. exact X. }
    rewrite EL. rewrite step_ret, step_set_off by lia.
    replace (o + 4 + zlen (enc_arg_list l)) with (o + zlen (enc_args l)) by lia. reflexivity.
  - split; [reflexivity|]. cbn [snd ln renders ival]. f_equal. apply cstr_id.
    rewrite !in_app_iff. intros [X|[X|X]]; [auto | cbn in X; lia | eapply cep57_no_nul; [|exact X]; apply (wf_hashb e W)].
Qed.
