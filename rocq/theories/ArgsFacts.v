(** Running the argument functions on encoded argument lists. *)
From Verif Require Import Base Zxlib Crypto Utils RuntimeArg BaseFacts Spec Exec.
Import S.

(** Arguments the device handles exactly: supported type, a name of at most
    300 bytes without NUL. *)
Definition arg_ok (a : arg) : Prop :=
  supported (a_ty a) = true /\ zlen (a_name a) <= 300 /\ ~ In 0 (a_name a).

Lemma cstr_id s : ~ In 0 s -> cstr s = s.
Proof.
  induction s as [|c s IH]; intros H; [reflexivity|]; cbn [cstr].
  destruct (c =? 0) eqn:E; [exfalso; apply H; left; lia|].
  rewrite IH; [reflexivity | intros X; apply H; right; auto].
Qed.

Lemma skip_arg_at a e o :
  wf e -> supported (a_ty a) = true -> at_ e o (enc_arg a) ->
  skip_arg e o = (Ret tt, o + zlen (enc_arg a)).
Proof.
  intros W Sp H; unfold enc_arg in H; rewrite !at_app in H; destruct H as (H1 & H2 & H3).
  unfold skip_arg.
  step (parse_item_at _ _ _ W H1). step (parse_item_at _ _ _ W H2).
  destruct (get_type_at (a_ty a) 0 _ _ W Sp H3) as (it & Hit & _). step Hit.
  unfold enc_arg; rewrite !zlen_app. cbv [ret]; pr.
Qed.

Lemma enc_arg_list_cons a l : enc_arg_list (a :: l) = enc_arg a ++ enc_arg_list l.
Proof. reflexivity. Qed.

Lemma skip_args_at l e o :
  wf e -> Forall (fun a => supported (a_ty a) = true) l -> at_ e o (enc_arg_list l) ->
  iter_loop (R := unit) (List.length l) (fun _ => skip_arg ;; ret (Next tt)) tt e o
  = (Ret (Next tt), o + zlen (enc_arg_list l)).
Proof.
  intros W F; revert o; induction F as [|a l Ha F IH]; intros o H.
  - cbn; pr.
  - rewrite enc_arg_list_cons in *; apply at_app in H; destruct H as [H1 H2].
    cbn [List.length iter_loop].
    rewrite bind_assoc. step (skip_arg_at a e o W Ha H1). rewrite step_ret.
    rewrite (IH _ H2), zlen_app. pr.
Qed.

Lemma parseRuntimeArgs_at l e o :
  wf e -> Forall (fun a => supported (a_ty a) = true) l -> at_ e o (enc_arg_list l) ->
  parseRuntimeArgs (zlen l) e o = (Ret tt, o + zlen (enc_arg_list l)).
Proof.
  intros W F H; unfold parseRuntimeArgs.
  assert (X : loop (R := unit) (zlen l) (fun _ => skip_arg ;; ret (Next tt)) tt e o
              = (Ret (Next tt), o + zlen (enc_arg_list l))).
  { rewrite loop_iter. unfold zlen at 1; rewrite Nat2Z.id. apply skip_args_at; auto. }
  step X. reflexivity.
Qed.

(** Type and, for options, inner type of an argument. *)
Definition typed (a : arg) (t : Z * Z) : Prop :=
  fst t = tag (a_ty a) /\ forall i, option_inner (a_ty a) = Some i -> snd t = i.

Lemma search_iter start arg0 l e o :
  wf e -> Forall arg_ok l -> at_ e o (enc_arg_list l) -> 0 <= start < 65536 ->
  match lookup arg0 l with
  | Some (_, a) => exists t, typed a t /\
      iter_loop (List.length l) (search_body start arg0) tt e o = (Ret (Done t), start)
  | None =>
      iter_loop (List.length l) (search_body start arg0) tt e o
      = (Ret (Next tt), o + zlen (enc_arg_list l))
  end.
Proof.
  intros W F H Hs; revert o H; induction F as [|a l Ha F IH]; intros o H.
  - cbn; pr.
  - destruct Ha as (Sp & Hn & Hz).
    rewrite enc_arg_list_cons in *; apply at_app in H; destruct H as [H1 H2].
    pose proof H1 as H1'. unfold enc_arg in H1'; rewrite !at_app in H1'; destruct H1' as (A1 & A2 & A3).
    destruct (get_type_at (a_ty a) 0 _ _ W Sp A3) as (it & Hit & Hin).
    cbn [lookup]. specialize (IH _ H2).
    assert (N : name_is (a_name a) arg0 = if list_eq_dec Z.eq_dec (a_name a) arg0 then true else false).
    { unfold name_is; rewrite cstr_id by auto.
      destruct (list_eq_dec Z.eq_dec (a_name a) arg0) as [E|E];
        [apply list_eqb_eq | apply list_eqb_neq]; auto. }
    destruct (list_eq_dec Z.eq_dec (a_name a) arg0) as [E|E].
    + exists (tag (a_ty a), it); split; [split; auto|].
      cbn [List.length iter_loop]. unfold search_body at 1. rewrite !bind_assoc.
      step (copy_item_at 300 _ _ _ W A1 Hn). rewrite N, !bind_assoc.
      step (parse_item_at _ _ _ W A2). rewrite bind_assoc. step Hit.
      rewrite bind_assoc, step_set_off by lia. reflexivity.
    + assert (B : search_body start arg0 tt e o = (Ret (Next tt), o + zlen (enc_arg a))).
      { unfold search_body. step (copy_item_at 300 _ _ _ W A1 Hn). rewrite N.
        step (parse_item_at _ _ _ W A2). step Hit.
        unfold enc_arg; rewrite !zlen_app. cbv [ret]; pr. }
      destruct (lookup arg0 l) as [[p b]|].
      * destruct IH as (t & Ht & IH). exists t; split; auto.
        cbn [List.length iter_loop]. step B. exact IH.
      * cbn [List.length iter_loop]. step B. rewrite IH, zlen_app; pr.
Qed.

Lemma search_at arg0 l e o :
  wf e -> Forall arg_ok l -> at_ e o (enc_arg_list l) ->
  match find_arg arg0 l with
  | Some a => exists t, typed a t /\ searchRuntimeArgs arg0 (zlen l) e o = (Ret t, o)
  | None => searchRuntimeArgs arg0 (zlen l) e o = (Fail parser_runtimearg_notfound, o)
  end.
Proof.
  intros W F H. pose proof (at_bound _ _ _ W H) as B. pose proof (zlen_nonneg (enc_arg_list l)).
  pose proof (search_iter o arg0 l e o W F H ltac:(lia)) as X.
  assert (L : forall s, loop (zlen l) (search_body o arg0) s e o
                        = iter_loop (List.length l) (search_body o arg0) s e o)
    by (intros s; rewrite loop_iter; unfold zlen; rewrite Nat2Z.id; reflexivity).
  unfold find_arg. destruct (lookup arg0 l) as [[p a]|].
  - destruct X as (t & Ht & X). exists t; split; auto.
    unfold searchRuntimeArgs. rewrite step_get_off, (bind_Ret _ _ _ _ _ _ (eq_trans (L tt) X)).
    reflexivity.
  - unfold searchRuntimeArgs. rewrite step_get_off, (bind_Ret _ _ _ _ _ _ (eq_trans (L tt) X)).
    rewrite step_set_off by lia. reflexivity.
Qed.

(** Position of the value inside an encoded argument. *)
Definition val_off (a : arg) : Z := zlen (lv (a_name a)) + 4.

Lemma getData_iter key l e o :
  wf e -> Forall arg_ok l -> at_ e o (enc_arg_list l) ->
  match lookup key l with
  | Some (p, a) =>
      iter_loop (List.length l) (getData_body key) tt e o
      = (Ret (Done (zlen (a_val a), tag (a_ty a))), o + p + val_off a)
      /\ at_ e (o + p) (enc_arg a)
  | None =>
      iter_loop (List.length l) (getData_body key) tt e o
      = (Ret (Next tt), o + zlen (enc_arg_list l))
  end.
Proof.
  intros W F; revert o; induction F as [|a l Ha F IH]; intros o H.
  - cbn; pr.
  - destruct Ha as (Sp & Hn & Hz).
    rewrite enc_arg_list_cons in *; apply at_app in H; destruct H as [H1 H2].
    pose proof H1 as H1'. unfold enc_arg in H1'; rewrite !at_app in H1'; destruct H1' as (A1 & A2 & A3).
    destruct (get_type_at (a_ty a) 0 _ _ W Sp A3) as (it & Hit & Hin).
    cbn [lookup]. specialize (IH _ H2).
    assert (N : name_is (a_name a) key = if list_eq_dec Z.eq_dec (a_name a) key then true else false).
    { unfold name_is; rewrite cstr_id by auto.
      destruct (list_eq_dec Z.eq_dec (a_name a) key) as [E|E];
        [apply list_eqb_eq | apply list_eqb_neq]; auto. }
    destruct (list_eq_dec Z.eq_dec (a_name a) key) as [E|E].
    + split; [|rewrite Z.add_0_r; exact H1].
      cbn [List.length iter_loop]. unfold getData_body at 1. rewrite !bind_assoc.
      step (copy_item_at 300 _ _ _ W A1 Hn). rewrite N, !bind_assoc.
      pose proof (at_bound _ _ _ W A2) as B2.
      apply at_lv in A2; destruct A2 as [A21 A22]. rewrite zlen_lv in *.
      pose proof (zlen_nonneg (a_name a)); pose proof (zlen_nonneg (a_val a)).
      rewrite zlen_lv in *.
      step (readU32_at (zlen (a_val a)) _ _ W A21 ltac:(lia)).
      rewrite bind_assoc, step_get_off, bind_assoc, step_ask, bind_assoc, step_check by lia.
      rewrite bind_assoc, step_advance by lia. rewrite bind_assoc.
      match type of Hit with _ ?x = _ => match goal with |- bind _ _ _ ?y = _ => replace y with x by lia end end.
      step Hit. rewrite bind_assoc, step_set_off by lia.
      unfold val_off; rewrite zlen_lv. cbv [bind ret fst]. pr.
    + assert (B : getData_body key tt e o = (Ret (Next tt), o + zlen (enc_arg a))).
      { unfold getData_body. step (copy_item_at 300 _ _ _ W A1 Hn). rewrite N.
        step (parse_item_at _ _ _ W A2). step Hit.
        unfold enc_arg; rewrite !zlen_app. cbv [ret]; pr. }
      destruct (lookup key l) as [[p b]|].
      * destruct IH as (IH & IHa).
        change (S.len (enc_arg a)) with (zlen (enc_arg a)). replace (o + (zlen (enc_arg a) + p)) with (o + zlen (enc_arg a) + p) by lia.
        split; [|exact IHa].
        cbn [List.length iter_loop]. step B. exact IH.
      * cbn [List.length iter_loop]. step B. rewrite IH, zlen_app; pr.
Qed.

Lemma getData_at key l e o :
  wf e -> Forall arg_ok l -> at_ e o (enc_arg_list l) ->
  match lookup key l with
  | Some (p, a) =>
      getData key (zlen l) e o = (Ret (zlen (a_val a), tag (a_ty a)), o + p + val_off a)
      /\ at_ e (o + p) (enc_arg a)
  | None => getData key (zlen l) e o = (Fail parser_no_data, o + zlen (enc_arg_list l))
  end.
Proof.
  intros W F H.
  pose proof (getData_iter key l e o W F H) as X.
  assert (L : loop (zlen l) (getData_body key) tt e o = iter_loop (List.length l) (getData_body key) tt e o)
    by (rewrite loop_iter; unfold zlen; rewrite Nat2Z.id; reflexivity).
  destruct (lookup key l) as [[p a]|].
  - destruct X as [X Xa]; split; auto. unfold getData. step (eq_trans L X). reflexivity.
  - unfold getData. step (eq_trans L X). reflexivity.
Qed.
