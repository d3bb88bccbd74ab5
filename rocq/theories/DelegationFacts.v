(** parseDelegation on encoded argument lists. *)
From Verif Require Import Base Zxlib Crypto Utils RuntimeArg Deploy DeployUI BaseFacts Spec SpecText SpecDeploy Exec ArgsFacts ReaderFacts TextFacts Shows DeployArgs SessionFacts.
Import S ST SD.

Definition versioned (t : Z) : bool := (t =? StoredVersionedContractByHash) || (t =? StoredVersionedContractByName).

(** The three COUNT macros: either every argument present has an admitted
    type, or the function returns early. *)
Lemma count_plain l e o i red :
  wf e -> Forall arg_ok l -> at_ e o (enc_arg_list l) -> plain_types l = true ->
  checkForDelegationItems i (zlen l) red e o
  = if has_delegation_args l then
      if dspecial i =? Generic then (Ret (set_generic true (set_fixed 2 (add_runtime 2 i))), o)
      else if red then
        match find_arg (text "new_validator") l with
        | Some a => if is_key_type (a_ty a) then (Ret (add_runtime 4 i), o) else (Fail parser_unexpected_type, o)
        | None => (Fail parser_runtimearg_notfound, o)
        end
      else (Ret (add_runtime 3 i), o)
    else (Fail parser_runtimearg_notfound, o).
Proof.
  intros W F A PT. unfold plain_types, typed_if_present in PT. unfold has_delegation_args, has.
  unfold checkForDelegationItems.
  set (c1 := match find_arg (text "amount") l with Some _ => u16 (0 + 1) | None => 0 end).
  assert (S1 : COUNT_RUNTIME_ARGTYPE (zlen l) (str "amount") is_u512_or_u32 0 e o = (Ret (inl c1), o)).
  { rewrite (COUNT_at e W l F o A _ _ _ _ decides_amount). unfold c1.
    destruct (find_arg (text "amount") l); auto. destruct (is_amount_type _); [reflexivity | discriminate]. }
  step S1.
  set (c2 := match find_arg (text "delegator") l with Some _ => u16 (c1 + 1) | None => c1 end).
  assert (S2 : COUNT_RUNTIME_ARGTYPE (zlen l) (str "delegator") is_pubkey c1 e o = (Ret (inl c2), o)).
  { rewrite (COUNT_at e W l F o A _ _ _ _ decides_pubkey). unfold c2.
    destruct (find_arg (text "delegator") l); auto.
    destruct (is_key_type _); [reflexivity | rewrite andb_false_r in PT; discriminate]. }
  step S2.
  set (c3 := match find_arg (text "validator") l with Some _ => u16 (c2 + 1) | None => c2 end).
  assert (S3 : COUNT_RUNTIME_ARGTYPE (zlen l) (str "validator") is_pubkey c2 e o = (Ret (inl c3), o)).
  { rewrite (COUNT_at e W l F o A _ _ _ _ decides_pubkey). unfold c3.
    destruct (find_arg (text "validator") l); auto.
    destruct (is_key_type _); [reflexivity | rewrite andb_false_r in PT; discriminate]. }
  step S3. clear S1 S2 S3.
  pose proof (CHECK_at e W l F o A "delegator" _ _ decides_pubkey) as K1.
  pose proof (CHECK_at e W l F o A "validator" _ _ decides_pubkey) as K2.
  pose proof (CHECK_at e W l F o A "amount" _ _ decides_amount) as K3.
  pose proof (CHECK_at e W l F o A "new_validator" _ _ decides_pubkey) as K4.
  destruct (find_arg (text "amount") l) as [a1|]; destruct (find_arg (text "delegator") l) as [a2|];
    destruct (find_arg (text "validator") l) as [a3|]; cbn [andb] in *;
    repeat match type of K1 with context [if ?b then _ else _] => destruct b; [|exfalso; revert PT; rewrite ?andb_false_r; discriminate] end;
    repeat match type of K2 with context [if ?b then _ else _] => destruct b; [|exfalso; revert PT; rewrite ?andb_false_r; discriminate] end;
    repeat match type of K3 with context [if ?b then _ else _] => destruct b; [|exfalso; revert PT; rewrite ?andb_false_r; discriminate] end;
    first [ step K1 | rewrite (bind_Fail _ _ _ _ _ _ K1); reflexivity ];
    first [ step K2 | rewrite (bind_Fail _ _ _ _ _ _ K2); reflexivity ];
    first [ step K3 | rewrite (bind_Fail _ _ _ _ _ _ K3); reflexivity ].
  destruct (dspecial i =? Generic); [reflexivity|].
  destruct red; [|reflexivity].
  destruct (find_arg (text "new_validator") l) as [a4|].
  - destruct (is_key_type (a_ty a4)); [step K4; reflexivity | apply (bind_Fail _ _ _ _ _ _ K4)].
  - apply (bind_Fail _ _ _ _ _ _ K4).
Qed.

(** fixed items in expert mode *)
Definition expert_fixed (x : bool) (g : bool) (i : ditem) : ditem :=
  if x then set_fixed (2 + (if versioned (dtype i) then 1 else 0) + (if g then 1 else 0)) i else i.

Lemma delegation_args_op l e o i red ha :
  wf e -> Forall arg_ok l -> at_ e o (enc_arg_list l) -> plain_types l = true ->
  has_delegation_args l = true -> dspecial i <> Generic -> dgeneric i = false ->
  (red = true -> typed_ok is_key_type "new_validator" l) ->
  parseDelegation_args i (zlen l) red ha e o
  = (Ret (expert_fixed (expert e && ha) false (add_runtime (if red then 4 else 3) i)), o).
Proof.
  intros W F A PT HD NG G T. unfold parseDelegation_args.
  assert (S1 : (if red then CHECK_RUNTIME_ARGTYPE (zlen l) (str "new_validator") is_pubkey else ret tt) e o = (Ret tt, o)).
  { destruct red; [apply (CHECK_ok e W l F o A _ _ _ decides_pubkey); auto | reflexivity]. }
  step S1.
  assert (S2 : checkForDelegationItems i (zlen l) red e o = (Ret (add_runtime (if red then 4 else 3) i), o)).
  { rewrite count_plain by auto. rewrite HD. replace (dspecial i =? Generic) with false by lia.
    destruct red; [|reflexivity]. destruct T as (a & E & K); auto. rewrite E, K. reflexivity. }
  rewrite (step_try_ok _ _ _ _ _ _ S2). rewrite step_ret.
  change (dspecial (add_runtime (if red then 4 else 3) i)) with (dspecial i).
  replace (dspecial i =? Generic) with false by lia. rewrite step_ask. unfold expert_fixed.
  change (dgeneric (add_runtime (if red then 4 else 3) i)) with (dgeneric i). rewrite G.
  destruct (expert e && ha); reflexivity.
Qed.

Lemma delegation_args_generic l e o i red ha :
  wf e -> Forall arg_ok l -> at_ e o (enc_arg_list l) -> plain_types l = true ->
  (dspecial i = Generic \/ has_delegation_args l = false) ->
  (red = true -> typed_ok is_key_type "new_validator" l) ->
  parseDelegation_args i (zlen l) red ha e o
  = (Ret (expert_fixed (expert e && ha) true
            (set_generic true (set_fixed 2 (add_runtime (if has "amount" l then 2 else 1) i)))), o).
Proof.
  intros W F A PT HD T. unfold parseDelegation_args.
  assert (S1 : (if red then CHECK_RUNTIME_ARGTYPE (zlen l) (str "new_validator") is_pubkey else ret tt) e o = (Ret tt, o)).
  { destruct red; [apply (CHECK_ok e W l F o A _ _ _ decides_pubkey); auto | reflexivity]. }
  step S1.
  pose proof (count_plain l e o i red W F A PT) as C.
  set (res := set_generic true (set_fixed 2 (add_runtime (if has "amount" l then 2 else 1) i))).
  assert (Fin : forall j, j = res ->
      (let i0 := if dspecial j =? Generic then set_generic true j else j in
       x <- ask expert ;;
       (if x && ha then
          let v := (dtype i0 =? StoredVersionedContractByHash) || (dtype i0 =? StoredVersionedContractByName) in
          ret (set_fixed (2 + (if v then 1 else 0) + (if dgeneric i0 then 1 else 0)) i0)
        else ret i0)) e o = (Ret (expert_fixed (expert e && ha) true res), o)).
  { intros j ->. cbv zeta. rewrite step_ask. unfold expert_fixed.
    replace (if dspecial res =? Generic then set_generic true res else res) with res by (destruct (dspecial res =? Generic); reflexivity).
    destruct (expert e && ha); reflexivity. }
  destruct (has_delegation_args l) eqn:HDA.
  - destruct HD as [HD|HD]; [|discriminate]. rewrite HD in C. change (Generic =? Generic) with true in C.
    rewrite (step_try_ok _ _ _ _ _ _ C), step_ret.
    apply Fin. unfold res. unfold has_delegation_args in HDA.
    destruct (has "amount" l); [reflexivity | discriminate].
  - rewrite (step_try_fail _ _ _ _ _ _ C).
    change ((parser_runtimearg_notfound =? parser_runtimearg_notfound) || (parser_runtimearg_notfound =? parser_unexpected_type)) with true.
    cbv iota. rewrite bind_assoc.
    pose proof (search_at (text "amount") l e o W F A) as SA.
    unfold has in res. destruct (find_arg (text "amount") l) as [a|].
    + destruct SA as (t & _ & SA). rewrite (step_try_ok _ _ _ _ _ _ SA), step_ret. apply Fin. reflexivity.
    + rewrite (step_try_fail _ _ _ _ _ _ SA), step_ret. apply Fin. reflexivity.
Qed.
