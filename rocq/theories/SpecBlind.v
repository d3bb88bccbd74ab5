(** Specification of the reviews of deploys whose arguments are not the ones
    the device expects.  Nothing in this file refers to the model. *)
From Verif Require Export Spec SpecText SpecDeploy SpecRaw.

Module SB.
Import S ST SD SR.

(** The first argument called amount, delegator or validator has a type other
    than the expected one. *)
Definition ill_typed (l : list arg) : Prop := plain_types l = false.
(** What the device demands of new_validator when it looks at it. *)
Definition heir_ok (must : bool) (l : list arg) : Prop :=
  (must = true -> has "new_validator" l = true) /\ typed_if_present is_key_type "new_validator" l = true.

(** Native transfers: amount of type U512, and otherwise anything but the
    expected arguments. *)
Definition motes_type (t : cltype) : bool := match t with Prim 8 => true | _ => false end.
Definition typed (ok : cltype -> bool) (name : string) (l : list arg) : bool :=
  match find_arg (text name) l with Some a => ok (a_ty a) | None => false end.
(** number of expected arguments among them *)
Definition known (l : list arg) : Z :=
  (if typed motes_type "amount" l then 1 else 0) + (if typed is_id_type "id" l then 1 else 0)
  + (if typed is_account_type "target" l then 1 else 0)
  + (if (len l =? 4) && typed is_account_type "source" l then 1 else 0).
Definition odd_transfer (l : list arg) : Prop := typed motes_type "amount" l = true /\ known l < len l.
(** The number of arguments and the first of them. *)
Definition first_arg (l : list arg) : list Z := le 4 (len l) ++ enc_arg_list (firstn 1 l).

(** Texts that fit the buffers; no bound on the code. *)
Definition fit (i : session) : Prop :=
  Forall good_arg (args_of i) /\ match i with Stored t ep _ => good_target t /\ good_name 99 ep | _ => True end.

(** Type and lines of the session. *)
Definition title (i : session) : string :=
  match i with
  | Stored _ ep l =>
      if plain_types l then type_text i
      else match operation_of ep with Some o => op_text o | None => "Contract execution" end
  | _ => type_text i
  end.
Definition entry_line (ep : list Z) : list line :=
  match operation_of ep with Some _ => [] | None => [ln "Entry-point" (Text ep)] end.

(** What is shown of the session [i] : these lines. *)
Inductive bare (x : bool) : session -> list line -> Prop :=
| b_call t ep l : ill_typed l -> (ep = text "redelegate" -> heir_ok true l) ->
    bare x (Stored t ep l) (if x then target_review true t ++ entry_line ep else [])
| b_code w l : ill_typed l -> has "auction" l = false -> heir_ok false l -> bare x (Module w l) []
| b_transfer l : odd_transfer l ->
    bare x (Transfer l) [ln "Args hash" (ArgsHash (text "native-transfer") (first_arg l))]
| b_more t ep l m o r : plain_types l = true -> stored_op ep l = Some o -> len l = op_args o -> delegation_review o l = Some r ->
    bare x (Stored t ep (l ++ m)) ((if x then target_review true t else []) ++ r).

(** The whole review; [n] stands where the number of approvals does. *)
Definition entitled (x : bool) (d : deploy) (tt : string) (n : Z) (s : list line) : list line :=
  let h := d_header d in
  [ln "Txn hash" (Hex (d_hash d)); ln "Type" (Words (text tt));
   ln "Chain ID" (Text (h_chain h)); ln "Account" (KeyText (h_alg h) (h_key h))]
  ++ (if x then
        [ln "Timestamp" (Time (h_time h / 1000)); ln "Ttl" (Ttl (h_ttl h / 1000));
         ln "Gas price" (Number (h_gas h)); ln "Deps #" (Number (len (h_deps h)))]
      else [])
  ++ [ln "Fee" (Motes (value (p_amount (d_payment d))))]
  ++ s
  ++ (if x then [ln "Approvals #" (Number n)] else []).

(** [lines] say which code or contract runs, and with which arguments: those of
    a recognised operation themselves, otherwise their hash.  In normal mode a
    recognised operation does not show where it is carried out. *)
Definition names (H : list Z -> list Z) (x : bool) (i : session) (lines : list line) : Prop :=
  let hashed l := In (ln "Args hash" (ArgsHash (text "execution") (enc_args l))) lines in
  match i with
  | Stored t ep l =>
      (x = true \/ stored_op ep l = None -> incl (target_review x t) lines) /\ (stored_op ep l = None -> hashed l)
  | Module w l =>
      (x = true \/ has "auction" l = false -> incl (code_review H w) lines) /\ (has "auction" l = false -> hashed l)
  | Transfer _ => True
  end.
(** The header of a deploy with that body. *)
Definition over (h : header) (b : list Z) : header :=
  Header (h_alg h) (h_key h) (h_time h) (h_ttl h) (h_gas h) b (h_deps h) (h_chain h).
(** The bytes of a deploy with that header, but for the hash of the body, the
    session [i], and [r] behind it. *)
Definition signed (H : list Z -> list Z) (h : header) (p : payment) (i : session) (r : list Z) : list Z :=
  let h' := over h (H (enc_payment p ++ enc_session i)) in
  enc_header h' ++ H (enc_header h') ++ enc_payment p ++ enc_session i ++ r.
(** The lines of a review but for the transaction hash. *)
Definition blank (x : bool) (h : header) (p : payment) (tt : string) (n : Z) (s : list line) : list line :=
  [ln "Type" (Words (text tt)); ln "Chain ID" (Text (h_chain h)); ln "Account" (KeyText (h_alg h) (h_key h))]
  ++ (if x then
        [ln "Timestamp" (Time (h_time h / 1000)); ln "Ttl" (Ttl (h_ttl h / 1000));
         ln "Gas price" (Number (h_gas h)); ln "Deps #" (Number (len (h_deps h)))]
      else [])
  ++ [ln "Fee" (Motes (value (p_amount p)))]
  ++ s
  ++ (if x then [ln "Approvals #" (Number n)] else []).
Definition signed_hash (H : list Z -> list Z) (h : header) (p : payment) (i : session) : list Z :=
  H (enc_header (over h (H (enc_payment p ++ enc_session i)))).
End SB.
