(** Properties C01, C02, C03: readers, type descriptors, argument lookup. *)
From Verif Require Import Base Zxlib Crypto Utils RuntimeArg BaseFacts Spec Exec ArgsFacts ReaderFacts Demo WitBasic.
Import S.

(** ** C01  Integer fields decode exactly *)
(** [reads p k]: in every buffer and at every cursor, [p] returns the value of
    the next [k] bytes and moves past them, or fails with "unexpected buffer
    end"; it has no third outcome. *)
Theorem C01_integers_decode_exactly :
  forall p k, In (p, k) [(readU8, 1); (readU16, 2); (readU32, 4); (readU64, 8)] ->
  forall e o, wf e -> 0 <= o < 65536 ->
  (o + k <= blen e ->
     exists bs, slice (mem e) o k = Some bs /\ p e o = (Ret (value bs), o + k)) /\
  (blen e < o + k -> exists o', p e o = (Fail parser_unexpected_buffer_end, o')).
Proof. exact integers_decode. Qed.
Print Assumptions C01_integers_decode_exactly.

Example C01_case :
  let e := demo_env [9; 1; 2; 0; 0; 7] in
  wf e /\ readU32 e 1 = (Ret 513, 5) /\ fst (readU32 e 3) = Fail parser_unexpected_buffer_end.
Proof. split; [apply wf_demo; reflexivity | split; reflexivity]. Qed.

(** ** C02  CLType descriptors are consumed exactly *)
(** Proved for [supported] descriptors: those in which every component but the
    last of a pair, triple, result or map has no parameter. *)
Theorem C02_descriptor_consumed_partial :
  forall t d e o, wf e -> supported t = true -> at_ e o (enc_type t) ->
  exists it, get_type d e o = (Ret (tag t, it), o + zlen (enc_type t))
             /\ (forall i, option_inner t = Some i -> it = i).
Proof. exact get_type_at. Qed.
Print Assumptions C02_descriptor_consumed_partial.

Theorem C02_nested_containers_refused :
  forall t d e o, wf e -> nested t = true -> at_ e o (enc_type t) ->
  exists o', get_type d e o = (Fail parser_unexpected_type, o').
Proof. exact nested_refused. Qed.
Print Assumptions C02_nested_containers_refused.

(** The full statement is false: descriptors with one level of nesting exist
    ([one_level]) that are refused, or accepted with bytes left over. *)
Theorem C02_descriptor_refuted :
  (exists t e, wf e /\ one_level t = true /\ at_ e 0 (enc_type t) /\
               fst (get_type 0 e 0) = Fail parser_unexpected_type) /\
  (exists t e it o', wf e /\ one_level t = true /\ at_ e 0 (enc_type t) /\
               get_type 0 e 0 = (Ret (tag t, it), o') /\ o' < zlen (enc_type t)).
Proof. exact descriptor_refuted. Qed.
Print Assumptions C02_descriptor_refuted.

Example C02_case :
  let t := CMap (Prim 10) (COption (CByteArray 32)) in
  let e := demo_env (enc_type t ++ [1; 2; 3]) in
  wf e /\ supported t = true /\ at_ e 0 (enc_type t) /\ snd (get_type 0 e 0) = 8
  /\ nested (CList (COption (Prim 4))) = true.
Proof. cbv zeta. split; [apply wf_demo; reflexivity|]. split; [reflexivity|]. split; [reflexivity|]. split; reflexivity. Qed.

(** ** C03  Runtime arguments are looked up by name, first match wins *)
(** [l] is any list of arguments whose types are supported and whose names have
    no NUL byte and at most 300 bytes ([arg_ok]); [lookup] is the
    specification: first argument with that name, and the bytes before it. *)
Theorem C03_lookup_first_match :
  forall name l e o, wf e -> Forall arg_ok l -> at_ e o (enc_arg_list l) ->
  match lookup name l with
  | Some (p, a) =>
      (exists t, searchRuntimeArgs name (zlen l) e o = (Ret t, o) /\
                 fst t = tag (a_ty a) /\ (forall i, option_inner (a_ty a) = Some i -> snd t = i)) /\
      getData name (zlen l) e o = (Ret (zlen (a_val a), tag (a_ty a)), o + p + zlen (lv (a_name a)) + 4) /\
      at_ e (o + p + zlen (lv (a_name a)) + 4) (a_val a)
  | None =>
      searchRuntimeArgs name (zlen l) e o = (Fail parser_runtimearg_notfound, o) /\
      fst (getData name (zlen l) e o) = Fail parser_no_data
  end.
Proof. exact lookup_first_match. Qed.
Print Assumptions C03_lookup_first_match.

(** A name that does not fit the 300-byte array is never skipped silently: the
    whole lookup is refused, unless the name is found before it. *)
Theorem C03_long_name_refused :
  forall name pre a post e o, wf e -> Forall arg_ok pre -> find_arg name pre = None ->
  300 < zlen (a_name a) -> at_ e o (enc_arg_list (pre ++ a :: post)) ->
  exists o', searchRuntimeArgs name (zlen (pre ++ a :: post)) e o = (Fail parser_unexpected_buffer_end, o').
Proof. exact search_long. Qed.
Print Assumptions C03_long_name_refused.

Definition demo_args : list arg :=
  [Arg (text "id") [1; 9; 0; 0; 0; 0; 0; 0; 0] (COption (Prim 5));
   Arg (text "amount") [2; 0; 1] (Prim 8);
   Arg (text "amount") [1; 5] (Prim 8)].
Example C03_case :
  let e := demo_env (enc_args demo_args) in
  wf e /\ Forall arg_ok demo_args /\ at_ e 4 (enc_arg_list demo_args) /\
  getData (text "amount") 3 e 4 = (Ret (3, 8), 39) /\ find_arg (text "amoun") demo_args = None.
Proof.
  split; [apply wf_demo; reflexivity|].
  split; [repeat constructor; cbn; try lia; intros X; repeat destruct X as [X|X]; try discriminate X; exact X|].
  repeat split; reflexivity.
Qed.
