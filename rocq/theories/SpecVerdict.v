(** Specification of which deploys are refused, and why.  Nothing in this file
    refers to the model. *)
From Verif Require Export Spec SpecText SpecDeploy SpecRaw SpecBlind.

Module SY.
Import S ST SD SR SB.

Inductive reason := Missing | Other_type | Number_of | No_amount | Too_long.

(** The payment: exactly one argument, amount, of type U512. *)
Definition payment_refusal (l : list arg) : option reason :=
  if len l =? 0 then Some Number_of
  else if (len l =? 1) && typed motes_type "amount" l then None else Some No_amount.

(** Redelegations need the key new_validator, transfers an amount of type U512;
    transfers of which all the arguments are expected need three at least. *)
Definition heir (l : list arg) : option reason :=
  match find_arg (text "new_validator") l with
  | None => Some Missing
  | Some a => if is_key_type (a_ty a) then None else Some Other_type
  end.
(** Code may name an operation in the argument auction: a string that takes at
    most 100 bytes. *)
Definition is_string (t : cltype) : bool := match t with Prim 10 => true | _ => false end.
Definition auction_refusal (l : list arg) : option reason :=
  match find_arg (text "auction") l with
  | None => None
  | Some a => if is_string (a_ty a) then if len (a_val a) <=? 100 then None else Some Too_long else Some Other_type
  end.
Definition session_refusal (i : session) : option reason :=
  match i with
  | Stored _ ep l => if list_eq_dec Z.eq_dec ep (text "redelegate") then heir l else None
  | Module _ l =>
      match auction_refusal l with
      | Some c => Some c
      | None => if typed_if_present is_key_type "new_validator" l then None else Some Other_type
      end
  | Transfer l =>
      match find_arg (text "amount") l with
      | None => Some Missing
      | Some a => if motes_type (a_ty a)
                  then if (known l =? len l) && (len l <? 3) then Some Number_of else None
                  else Some Other_type
      end
  end.
(** What is said to be a string is one: otherwise see C29. *)
Definition plain_code (i : session) : Prop :=
  match i with
  | Module _ l => forall a, find_arg (text "auction") l = Some a -> is_string (a_ty a) = true -> exists s, a_val a = lv s
  | _ => True
  end.
(** The values that are shown are values of their types. *)
Definition valid (ok : cltype -> bool) (v : cltype -> list Z -> option view) (name : string) (l : list arg) : Prop :=
  forall a, find_arg (text name) l = Some a -> ok (a_ty a) = true -> v (a_ty a) (a_val a) <> None.
Record sound (l : list arg) : Prop := {
  s_amount : valid is_amount_type amount_view "amount" l;
  s_delegator : valid is_key_type arg_view "delegator" l;
  s_validator : valid is_key_type arg_view "validator" l;
  s_heir : valid is_key_type arg_view "new_validator" l;
  s_target : valid is_account_type arg_view "target" l;
  s_source : valid is_account_type arg_view "source" l;
  s_id : valid is_id_type arg_view "id" l }.
(** The arguments of a delegation come first. *)
Definition early (o : operation) (l : list arg) : Prop :=
  let k := firstn (Z.to_nat (op_args o)) l in has_delegation_args k = true /\ (o = ORedelegate -> has "new_validator" k = true).
(** The operation that code names. *)
Definition auction_deed (l : list arg) : option operation :=
  match find_arg (text "auction") l with Some a => operation_of (skipn 4 (a_val a)) | None => None end.
Definition gathered (i : session) : Prop :=
  match i with
  | Stored _ ep l => plain_types l = true -> forall o, stored_op ep l = Some o -> early o l
  | Module _ l => has "auction" l = true -> plain_types l = true -> exists o, auction_op l = Some o /\ early o l
  | Transfer _ => True
  end.
(** Code whose argument auction names no operation, or one without its arguments:
    the device then looks for them in the wrong place. *)
Definition misread (i : session) : bool :=
  match i with
  | Module _ l => has "auction" l && plain_types l && negb (match auction_deed l with Some _ => has_delegation_args l | None => false end)
  | _ => false
  end.
(** The first argument has a name of three characters at least. *)
Definition legible (l : list arg) : Prop :=
  match l with a :: _ => 3 <= len (a_name a) /\ Forall (fun b => b < 128) (a_name a) | [] => True end.
(** The hash of code is shown, except that of code that names an operation in
    normal mode, and that of code with an argument of an unexpected type. *)
Definition shows_code (x : bool) (i : session) : bool :=
  match i with
  | Module _ l =>
      if has "auction" l then x || (plain_types l && match auction_deed l with Some _ => false | None => true end) else plain_types l
  | _ => false
  end.
(** Code fits where it is copied to, when its hash is shown. *)
Definition short_code (x : bool) (i : session) : Prop :=
  match i with Module w _ => shows_code x i = true -> len w <= 32 | _ => True end.
(** Code with an argument auction and an argument of an unexpected type: the
    type, and the lines of the session. *)
Definition deed_title (l : list arg) : string := match auction_deed l with Some o => op_text o | None => "Contract execution" end.
Definition deed_lines (H : list Z -> list Z) (x : bool) (w : list Z) (l : list arg) : list line :=
  if x then code_review H w ++ match auction_deed l with Some _ => [] | None => [ln "?" (Words (text "?"))] end else [].
End SY.
