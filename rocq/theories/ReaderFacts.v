(** Readers on arbitrary bytes; refusal of nested descriptors; argument names
    that are too long or contain a NUL. *)
From Verif Require Import Base Zxlib Crypto Utils RuntimeArg BaseFacts Spec Exec ArgsFacts.
Import S.

Lemma value_at_shift i bs : 0 <= i -> value_at (i + 1) bs = 256 * value_at i bs.
Proof.
  revert i; induction bs as [|b r IH]; intros i Hi; cbn [value_at]; [lia|].
  rewrite (IH (i + 1)) by lia. rewrite Z.pow_add_r by lia. change (256 ^ 1) with 256. lia.
Qed.
Lemma value_cons b r : value (b :: r) = b + 256 * value r.
Proof. unfold value; cbn [value_at]. rewrite Z.pow_0_r, value_at_shift by lia. lia. Qed.
Lemma le_val_value bs : le_val bs = value bs.
Proof.
  induction bs as [|b r IH]; [reflexivity|]; cbn [le_val]; rewrite value_cons, IH; reflexivity.
Qed.
Lemma value_le n v : 0 <= v < 256 ^ Z.of_nat n -> value (le n v) = v.
Proof.
  revert v; induction n as [|n IH]; intros v H.
  - cbn in *. unfold value; cbn. lia.
  - cbn [le]; rewrite value_cons. rewrite Nat2Z.inj_succ, Z.pow_succ_r in H by lia.
    rewrite IH by (split; [lia | apply Z.div_lt_upper_bound; lia]). lia.
Qed.
Lemma value_bound bs : bytes bs -> 0 <= value bs < 256 ^ zlen bs.
Proof.
  induction 1 as [|b r Hb _ IH]; [unfold value; cbn; lia|].
  rewrite value_cons, zlen_cons, Z.pow_add_r by (try apply zlen_nonneg; lia).
  change (256 ^ 1) with 256. unfold byte in Hb. lia.
Qed.
Lemma le_value n bs : bytes bs -> List.length bs = n -> le n (value bs) = bs.
Proof.
  intros B; revert n; induction B as [|b r Hb _ IH]; intros n <-; [reflexivity|].
  cbn [List.length le]. rewrite value_cons. unfold byte in Hb.
  replace ((b + 256 * value r) mod 256) with b by lia.
  replace ((b + 256 * value r) / 256) with (value r) by lia.
  rewrite IH; reflexivity.
Qed.

(** * Reading an integer of [k] bytes from any buffer at any position *)
Definition reads (p : P Z) (k : Z) : Prop :=
  forall e o, wf e -> 0 <= o < 65536 ->
  if o + k <=? blen e
  then exists bs, slice (mem e) o k = Some bs /\ p e o = (Ret (value bs), o + k)
  else exists o', p e o = (Fail parser_unexpected_buffer_end, o').

Lemma read_le_step k e o b :
  rd (mem e) o = Some b -> o < blen e -> 0 <= o -> o + 1 < 65536 ->
  read_le (Datatypes.S k) e o
  = bind (read_le k) (fun r => ret (b + 256 * r)) e (o + 1).
Proof.
  intros Hb H1 H2 H3. cbn [read_le].
  rewrite step_get_off, step_ask, step_check by lia.
  rewrite (step_mem_at _ b) by exact Hb.
  rewrite step_advance by lia. reflexivity.
Qed.

Lemma read_le_ok k e o :
  wf e -> 0 <= o -> o + Z.of_nat k <= blen e ->
  exists bs, slice (mem e) o (Z.of_nat k) = Some bs /\ read_le k e o = (Ret (value bs), o + Z.of_nat k).
Proof.
  intros W; revert o; induction k as [|k IH]; intros o Ho Hb.
  - change (Z.of_nat 0) with 0 in *. exists []; split; [|cbn [read_le]; cbv [ret]; pr].
    rewrite (wf_len e W) in Hb. apply slice_Some.
    exists (firstn (Z.to_nat o) (mem e)), (skipn (Z.to_nat o) (mem e)).
    cbn [app]; rewrite firstn_skipn; repeat split.
    unfold zlen in *; rewrite firstn_length; lia.
  - pose proof (wf_max e W). pose proof (wf_len e W).
    destruct (rd_total (mem e) o ltac:(lia)) as [b Rb].
    destruct (IH (o + 1) ltac:(lia) ltac:(lia)) as (bs & Sl & E).
    exists (b :: bs); split.
    + pose proof (slice_len _ _ _ _ Sl) as L.
      assert (A : at_ e o (b :: bs)) by (apply at_cons; split; [exact Rb | unfold at_; rewrite L; exact Sl]).
      unfold at_ in A. rewrite zlen_cons, L in A. rewrite <- A. f_equal; lia.
    + rewrite (read_le_step k e o b) by (auto; lia). step E.
      rewrite value_cons. cbv [ret]; pr.
Qed.

Lemma read_le_short k e o :
  wf e -> 0 <= o < 65536 -> blen e < o + Z.of_nat (Datatypes.S k) ->
  exists o', read_le (Datatypes.S k) e o = (Fail parser_unexpected_buffer_end, o').
Proof.
  intros W; revert o; induction k as [|k IH]; intros o Ho Hb.
  - exists o. cbn [read_le]. rewrite step_get_off, step_ask.
    unfold check. destruct (o <? blen e) eqn:E; [lia | reflexivity].
  - destruct (o <? blen e) eqn:E.
    + pose proof (wf_max e W). pose proof (wf_len e W).
      destruct (rd_total (mem e) o ltac:(lia)) as [b Rb].
      destruct (IH (o + 1) ltac:(lia) ltac:(lia)) as (o' & F).
      exists o'. rewrite (read_le_step _ e o b) by (auto; lia).
      apply (bind_Fail _ _ _ _ _ _ F).
    + exists o. remember (Datatypes.S k) as m. cbn [read_le]. rewrite step_get_off, step_ask, E. reflexivity.
Qed.

Lemma read_le_reads k : reads (read_le (Datatypes.S k)) (Z.of_nat (Datatypes.S k)).
Proof.
  unfold reads; intros e o W Ho. destruct (_ <=? _) eqn:E.
  - apply read_le_ok; auto; lia.
  - apply read_le_short; auto; lia.
Qed.

Lemma integers_reads :
  reads readU8 1 /\ reads readU16 2 /\ reads readU32 4 /\ reads readU64 8.
Proof. repeat split; apply read_le_reads. Qed.

(** * Nested containers are refused *)
Lemma container_tag t : container t = true -> is_container_type (tag t) = true.
Proof.
  unfold is_container_type, TAG_OPTION, TAG_LIST, TAG_RESULT, TAG_ANY, container.
  destruct t; intros H; try discriminate H; cbn [tag]; try reflexivity; lia.
Qed.

Lemma plain_tag t : plain t = true -> is_container_type (tag t) = false /\ enc_type t = [tag t].
Proof.
  intros H; destruct (plain_leaf t H) as (L & _ & g & -> & _); split; [|reflexivity].
  apply leaf_not_container; auto.
Qed.

Lemma at_type e o t r : at_ e o (enc_type t ++ r) -> at_ e o [tag t].
Proof.
  rewrite enc_type_cons. cbn [app]. rewrite !at_cons. intros [H1 H2]; split; [exact H1|].
  unfold at_ in *. change (zlen (@nil Z)) with 0.
  apply slice_bounds in H2. destruct (slice_total (mem e) (o + 1) 0) as [bs Hb]; try lia.
  pose proof (slice_len _ _ _ _ Hb). destruct bs; [exact Hb|]. rewrite zlen_cons in H.
  pose proof (zlen_nonneg bs); lia.
Qed.

Lemma nested_refused t d e o :
  wf e -> nested t = true -> at_ e o (enc_type t) ->
  exists o', get_type d e o = (Fail parser_unexpected_type, o').
Proof.
  intros W N H. unfold get_type.
  assert (H0 : at_ e o [tag t]) by (apply (at_type e o t []); rewrite app_nil_r; exact H).
  step (readU8_at _ _ _ W H0).
  assert (T : 13 <= tag t <= 20) by (destruct t; try discriminate N; cbn [tag]; lia).
  unfold check_runtime_type; rewrite step_check by (unfold NUM_RUNTIME_TYPES; lia).
  assert (K : exists o', parse_additional_typebytes 3 (tag t) d e (o + 1) = (Fail parser_unexpected_type, o'));
    [|destruct K as [o' K]; exists o'; apply (bind_Fail _ _ _ _ _ _ K)].
  rewrite enc_type_cons in H. change (tag t :: rest t) with ([tag t] ++ rest t) in H.
  apply at_app in H; destruct H as [_ H]; change (zlen [tag t]) with 1 in H.
  assert (M : forall o' (q : P Z), q e o' = fail parser_unexpected_type e o' -> exists o'', q e o' = (Fail parser_unexpected_type, o''))
    by (intros o' q Hq; rewrite Hq; eexists; reflexivity).
  remember 2%nat as f eqn:Ef.
  destruct t as [g | a | a | n | a b | a b | a | a b | a b c]; try discriminate N;
    cbn [nested] in N; unfold rest in H; cbn [enc_type tl] in H; cbn [tag parse_additional_typebytes]; tags.
  - rewrite <- (app_nil_r (enc_type a)) in H.
    step (readU8_at _ _ _ W (at_type _ _ _ _ H)). rewrite container_tag by auto. eexists; reflexivity.
  - apply andb_true_iff in N; destruct N as [N A].
    rewrite <- (app_nil_r (enc_type a)) in H.
    step (readU8_at _ _ _ W (at_type _ _ _ _ H)).
    replace (tag a =? 21) with false.
    + rewrite container_tag by auto. eexists; reflexivity.
    + symmetry. destruct a; cbn in *; try reflexivity; lia.
  - destruct (container a) eqn:Ca.
    + step (readU8_at _ _ _ W (at_type _ _ _ _ H)).
      assert (B : exists b', readU8 e (o + 1 + 1) = (Ret b', o + 1 + 1 + 1)).
      { pose proof (enc_type_cons a) as X. destruct (enc_type b) as [|x l] eqn:Eb; [destruct b; discriminate Eb|].
        rewrite X in H. cbn [app] in H. apply at_cons in H; destruct H as [_ H].
        destruct (rest a ++ x :: l) as [|y l'] eqn:Ey; [destruct (rest a); discriminate Ey|].
        exists y. apply readU8_at; auto. apply (at_app _ _ [y] l') in H. apply H. }
      destruct B as [b' B]. step B. rewrite container_tag by auto. eexists; reflexivity.
    + cbn [orb] in N. apply andb_true_iff in N; destruct N as [Pa Cb].
      destruct (plain_tag a Pa) as [Na Ea]. rewrite Ea in H.
      apply at_app in H; destruct H as [H1 H2]. change (zlen [tag a]) with 1 in H2.
      rewrite <- (app_nil_r (enc_type b)) in H2.
      step (readU8_at _ _ _ W H1). step (readU8_at _ _ _ W (at_type _ _ _ _ H2)).
      rewrite Na, container_tag by auto. eexists; reflexivity.
  - rewrite <- (app_nil_r (enc_type a)) in H.
    step (readU8_at _ _ _ W (at_type _ _ _ _ H)). rewrite container_tag by auto. eexists; reflexivity.
  - destruct (container a) eqn:Ca.
    + step (readU8_at _ _ _ W (at_type _ _ _ _ H)). rewrite container_tag by auto. eexists; reflexivity.
    + cbn [orb] in N. apply andb_true_iff in N; destruct N as [Pa Cb].
      destruct (plain_tag a Pa) as [Na Ea]. rewrite Ea in H.
      apply at_app in H; destruct H as [H1 H2]. change (zlen [tag a]) with 1 in H2.
      rewrite <- (app_nil_r (enc_type b)) in H2.
      step (readU8_at _ _ _ W H1). rewrite Na. step (readU8_at _ _ _ W (at_type _ _ _ _ H2)).
      rewrite container_tag by auto. eexists; reflexivity.
  - destruct (container a) eqn:Ca.
    + step (readU8_at _ _ _ W (at_type _ _ _ _ H)). rewrite container_tag by auto. eexists; reflexivity.
    + cbn [orb] in N. destruct (plain a) eqn:Pa; [|discriminate N]. cbn [andb] in N.
      destruct (plain_tag a Pa) as [Na Ea]. rewrite Ea in H.
      apply at_app in H; destruct H as [H1 H2]. change (zlen [tag a]) with 1 in H2.
      step (readU8_at _ _ _ W H1). rewrite Na. step (readU8_at _ _ _ W (at_type _ _ _ _ H2)).
      destruct (container b) eqn:Cb.
      * rewrite container_tag by auto. eexists; reflexivity.
      * cbn [orb] in N. apply andb_true_iff in N; destruct N as [Pb Cc].
        destruct (plain_tag b Pb) as [Nb Eb]. rewrite Eb in H2.
        apply at_app in H2; destruct H2 as [H2 H3]. change (zlen [tag b]) with 1 in H3.
        rewrite <- (app_nil_r (enc_type c)) in H3.
        rewrite Nb. step (readU8_at _ _ _ W (at_type _ _ _ _ H3)).
        rewrite container_tag by auto. eexists; reflexivity.
Qed.

(** * Names longer than the 300-byte array *)
Lemma copy_item_long cap bs e o :
  wf e -> at_ e o (lv bs) -> cap < zlen bs ->
  copy_item_into_charbuffer cap e o = (Fail parser_unexpected_buffer_end, o + 4).
Proof.
  intros W H Hc. pose proof (at_bound e o _ W H) as B. rewrite zlen_lv in B.
  apply at_lv in H; destruct H as [H1 H2]. pose proof (zlen_nonneg bs).
  unfold copy_item_into_charbuffer.
  step (readU32_at (zlen bs) e o W H1 ltac:(lia)).
  rewrite step_get_off, step_ask. unfold check.
  destruct (_ && _) eqn:E; [lia | reflexivity].
Qed.

Lemma search_iter_long start key pre a post e o :
  wf e -> Forall arg_ok pre -> find_arg key pre = None -> 300 < zlen (a_name a) ->
  at_ e o (enc_arg_list (pre ++ a :: post)) -> 0 <= start < 65536 ->
  exists o', iter_loop (List.length (pre ++ a :: post)) (search_body start key) tt e o
             = (Fail parser_unexpected_buffer_end, o').
Proof.
  intros W F K L H Hs. revert o H. induction F as [|b l Hb F IH]; intros o H.
  - cbn [app] in *. rewrite enc_arg_list_cons in H; apply at_app in H; destruct H as [H _].
    unfold enc_arg in H; rewrite !at_app in H; destruct H as (A1 & _).
    eexists. cbn [List.length iter_loop]. unfold search_body at 1.
    apply bind_Fail with (o' := o + 4). apply bind_Fail. apply (copy_item_long 300 (a_name a)); auto.
  - cbn [app] in *. rewrite enc_arg_list_cons in H; apply at_app in H; destruct H as [H1 H2].
    destruct Hb as (Sp & Hn & Hz).
    unfold find_arg in K, IH. cbn [lookup] in K.
    destruct (list_eq_dec Z.eq_dec (a_name b) key) as [|E]; [discriminate|].
    destruct (lookup key l) as [[p c]|] eqn:Lk; [discriminate|].
    pose proof (search_iter start key [b] e o W ltac:(constructor; [split; auto | constructor])
                  ltac:(unfold enc_arg_list; cbn; rewrite app_nil_r; exact H1) Hs) as X.
    cbn [lookup] in X. destruct (list_eq_dec Z.eq_dec (a_name b) key) as [|_]; [contradiction|].
    change (List.length (b :: l ++ a :: post)) with (List.length [b] + List.length (l ++ a :: post))%nat.
    rewrite iter_loop_plus. step X.
    apply IH; auto. unfold enc_arg_list at 1; cbn. rewrite app_nil_r. exact H2.
Qed.

Lemma search_long key pre a post e o :
  wf e -> Forall arg_ok pre -> find_arg key pre = None -> 300 < zlen (a_name a) ->
  at_ e o (enc_arg_list (pre ++ a :: post)) ->
  exists o', searchRuntimeArgs key (zlen (pre ++ a :: post)) e o = (Fail parser_unexpected_buffer_end, o').
Proof.
  intros W F K L H. pose proof (at_bound _ _ _ W H) as B.
  pose proof (zlen_nonneg (enc_arg_list (pre ++ a :: post))).
  destruct (search_iter_long o key pre a post e o W F K L H ltac:(lia)) as [o' X].
  exists o'. unfold searchRuntimeArgs. rewrite step_get_off.
  apply bind_Fail. rewrite loop_iter. unfold zlen; rewrite Nat2Z.id. exact X.
Qed.

(** * Statements used by the property files *)
Lemma integers_decode :
  forall p k, In (p, k) [(readU8, 1); (readU16, 2); (readU32, 4); (readU64, 8)] ->
  forall e o, wf e -> 0 <= o < 65536 ->
  (o + k <= blen e ->
     exists bs, slice (mem e) o k = Some bs /\ p e o = (Ret (value bs), o + k)) /\
  (blen e < o + k -> exists o', p e o = (Fail parser_unexpected_buffer_end, o')).
Proof.
  intros p k H e o W Ho.
  assert (R : reads p k).
  { destruct integers_reads as (A & B & C & D).
    cbn [In] in H; destruct H as [H|[H|[H|[H|[]]]]]; inversion H; subst; auto. }
  specialize (R e o W Ho). destruct (o + k <=? blen e) eqn:E; split; intros; try lia; auto.
Qed.

Lemma lookup_first_match name l e o :
  wf e -> Forall arg_ok l -> at_ e o (enc_arg_list l) ->
  match lookup name l with
  | Some (p, a) =>
      (exists t, searchRuntimeArgs name (zlen l) e o = (Ret t, o) /\
                 fst t = tag (a_ty a) /\ (forall i, option_inner (a_ty a) = Some i -> snd t = i)) /\
      getData name (zlen l) e o = (Ret (zlen (a_val a), tag (a_ty a)), o + p + zlen (lv (a_name a)) + 4) /\
      at_ e (o + p + zlen (lv (a_name a)) + 4) (a_val a)
  | None =>
      searchRuntimeArgs name (zlen l) e o = (Fail parser_runtimearg_notfound, o) /\
      fst (getData name (zlen l) e o) = Fail parser_no_data
  end.
Proof.
  intros W F H. pose proof (search_at name l e o W F H) as X. pose proof (getData_at name l e o W F H) as Y.
  unfold find_arg in X. destruct (lookup name l) as [[p a]|].
  - destruct X as (t & (T1 & T2) & X), Y as (Y & A). split; [exists t; auto|].
    unfold enc_arg in A. rewrite !at_app in A. destruct A as (_ & A & _).
    apply at_lv in A; destruct A as [_ A].
    split; [|exact A].
    rewrite Y. unfold val_off. pr.
  - split; auto. rewrite Y; reflexivity.
Qed.

Lemma lookup_name n l p a : lookup n l = Some (p, a) -> In a l /\ a_name a = n.
Proof.
  revert p; induction l as [|b l IH]; intros p H; cbn [lookup] in H; [discriminate|].
  destruct (list_eq_dec Z.eq_dec (a_name b) n) as [E|E]; [injection H as <- <-; split; [left|]; auto|].
  destruct (lookup n l) as [[q c]|]; [|discriminate]. injection H as <- <-.
  destruct (IH q eq_refl). split; [right|]; auto.
Qed.
(** What a lookup returns belongs to an argument with exactly that name. *)
Lemma lookup_exact name l e o r o' :
  wf e -> Forall arg_ok l -> at_ e o (enc_arg_list l) -> getData name (zlen l) e o = (Ret r, o') ->
  exists a, In a l /\ a_name a = name /\ r = (zlen (a_val a), tag (a_ty a)) /\ at_ e o' (a_val a).
Proof.
  intros W F A G. pose proof (lookup_first_match name l e o W F A) as X.
  destruct (lookup name l) as [[p a]|] eqn:L.
  - destruct X as (_ & X & Y). exists a. rewrite X in G. injection G as <- <-. apply lookup_name in L. tauto.
  - destruct X as [_ X]. rewrite G in X. discriminate X.
Qed.
