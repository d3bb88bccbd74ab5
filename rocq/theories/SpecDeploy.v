(** Specification of deploys: abstract syntax, binary encoding, and the review
    a user must see.  Nothing in this file refers to the model. *)
From Verif Require Export Spec SpecText.

Module SD.
Import S ST.

(** * Values on screen, abstractly *)
Inductive view :=
| Hex (bs : list Z)                  (* checksummed hexadecimal *)
| KeyText (tag : Z) (key : list Z)   (* public key *)
| Text (s : list Z)                  (* text taken from the transaction *)
| Words (s : list Z)                 (* fixed wording *)
| Motes (n : Z) | Number (n : Z) | Ttl (sec : Z) | Time (sec : Z)
| ArgsHash (label bs : list Z).      (* hash of the argument bytes [bs] *)
Definition line := (list Z * view)%type.
Definition ln (label : string) (v : view) : line := (text label, v).

(** How a value of each type is presented. *)
Definition num_bytes (n : Z) (val : list Z) : option view :=
  if len val =? n then Some (Number (value val)) else None.
Definition hex_bytes (bs : list Z) : option view :=
  if (1 <=? len bs) && (len bs <=? 49) then Some (Hex bs) else None.
Definition big_number (val : list Z) : option Z :=
  match val with
  | n :: bs => if (n =? len bs) && (n <=? 64) then Some (value bs) else None
  | [] => None
  end.
Definition arg_view (ty : cltype) (val : list Z) : option view :=
  match ty with
  | Prim 3 => num_bytes 1 val
  | Prim 4 => num_bytes 4 val
  | Prim 5 => num_bytes 8 val
  | Prim 8 => match big_number val with Some n => Some (Motes n) | None => None end
  | Prim 11 => match val with _ :: bs => hex_bytes bs | [] => None end
  | Prim 12 => hex_bytes (removelast val)
  | Prim 22 =>
      match val with
      | t :: key => if ((t =? 1) && (len key =? 32)) || ((t =? 2) && (len key =? 33))
                    then Some (KeyText t key) else None
      | [] => None
      end
  | CByteArray n => if len val =? n then hex_bytes val else None
  | COption t =>
      match val with
      | [0] => Some (Words (text "Null"))
      | 1 :: v =>
          match t with
          | Prim 4 => num_bytes 4 v
          | Prim 5 => num_bytes 8 v
          | Prim 12 => hex_bytes (removelast v)
          | _ => None
          end
      | _ => None
      end
  | _ => None
  end.
(** Amounts, in motes. *)
Definition amount_view (ty : cltype) (val : list Z) : option view :=
  match ty with
  | Prim 4 => if len val =? 4 then Some (Motes (value val)) else None
  | Prim 8 => match big_number val with Some n => Some (Motes n) | None => None end
  | _ => None
  end.

Definition want (view_of : cltype -> list Z -> option view) (label : string) (name : string)
                (l : list arg) : option line :=
  match find_arg (text name) l with
  | Some a => match view_of (a_ty a) (a_val a) with Some v => Some (ln label v) | None => None end
  | None => None
  end.
Fixpoint all {A} (l : list (option A)) : option (list A) :=
  match l with
  | [] => Some []
  | Some a :: r => match all r with Some s => Some (a :: s) | None => None end
  | None :: _ => None
  end.
Definition has (name : string) (l : list arg) : bool :=
  match find_arg (text name) l with Some _ => true | None => false end.
(** the first argument of that name, if any, has an admitted type *)
Definition typed_if_present (ok : cltype -> bool) (name : string) (l : list arg) : bool :=
  match find_arg (text name) l with Some a => ok (a_ty a) | None => true end.

(** * Deploys *)
Record header := Header {
  h_alg : Z; h_key : list Z; h_time : Z; h_ttl : Z; h_gas : Z; h_bodyhash : list Z;
  h_deps : list (list Z); h_chain : list Z }.
Definition enc_header (h : header) : list Z :=
  [h_alg h] ++ h_key h ++ le 8 (h_time h) ++ le 8 (h_ttl h) ++ le 8 (h_gas h) ++ h_bodyhash h
  ++ le 4 (len (h_deps h)) ++ List.concat (h_deps h) ++ lv (h_chain h).

(** [ver]: contract version, if given *)
Inductive target :=
| ByHash (h : list Z) | ByName (n : list Z)
| ByHashV (h : list Z) (ver : option Z) | ByNameV (n : list Z) (ver : option Z).
Definition enc_ver (v : option Z) : list Z := match v with None => [0] | Some n => 1 :: le 4 n end.
Definition enc_target (t : target) : list Z :=
  match t with
  | ByHash h => 1 :: h
  | ByName n => 2 :: lv n
  | ByHashV h v => 3 :: h ++ enc_ver v
  | ByNameV n v => 4 :: lv n ++ enc_ver v
  end.

Inductive session :=
| Module (code : list Z) (args : list arg)
| Stored (t : target) (entry : list Z) (args : list arg)
| Transfer (args : list arg).
Definition enc_session (s : session) : list Z :=
  match s with
  | Module w l => 0 :: lv w ++ enc_args l
  | Stored t ep l => enc_target t ++ lv ep ++ enc_args l
  | Transfer l => 5 :: enc_args l
  end.
Definition args_of (s : session) : list arg :=
  match s with Module _ l => l | Stored _ _ l => l | Transfer l => l end.

(** Payment: code (empty for the standard payment) and the amount. *)
Record payment := Payment { p_code : list Z; p_amount : list Z }.
Definition payment_args (p : payment) : list arg :=
  [Arg (text "amount") (len (p_amount p) :: p_amount p) (Prim 8)].
Definition enc_payment (p : payment) : list Z := 0 :: lv (p_code p) ++ enc_args (payment_args p).

(** Approval: signer (algorithm, key) and signature (algorithm, 64 bytes). *)
Record approval := Approval { ap_alg : Z; ap_key : list Z; ap_sig : list Z }.
Definition enc_approval (a : approval) : list Z := [ap_alg a] ++ ap_key a ++ [ap_alg a] ++ ap_sig a.

Record deploy := Deploy {
  d_header : header; d_hash : list Z; d_payment : payment; d_session : session;
  d_approvals : list approval }.
Definition enc_body (d : deploy) : list Z := enc_payment (d_payment d) ++ enc_session (d_session d).
Definition enc_deploy (d : deploy) : list Z :=
  enc_header (d_header d) ++ d_hash d ++ enc_body d
  ++ le 4 (len (d_approvals d)) ++ List.concat (List.map enc_approval (d_approvals d)).

(** What the device receives: a format byte, then the deploy. *)
Definition enc_tx (d : deploy) : list Z := 0 :: enc_deploy d.

(** * Well-formed deploys *)
Definition key_len (alg : Z) : Z := if alg =? 2 then 33 else 32.
Definition good_name (max : Z) (n : list Z) : Prop := len n <= max /\ ~ In 0 n.
Definition good_arg (a : arg) : Prop := supported (a_ty a) = true /\ good_name 300 (a_name a).

Record good_header (h : header) : Prop := {
  gh_alg : h_alg h = 1 \/ h_alg h = 2;
  gh_key : len (h_key h) = key_len (h_alg h);
  gh_time : 0 <= h_time h < 2 ^ 64; gh_ttl : 0 <= h_ttl h < 2 ^ 64; gh_gas : 0 <= h_gas h < 2 ^ 64;
  gh_bodyhash : len (h_bodyhash h) = 32;
  gh_deps : Forall (fun x => len x = 32) (h_deps h);
  gh_chain : good_name 99 (h_chain h) }.

Definition good_ver (v : option Z) : Prop := match v with None => True | Some n => 0 <= n < 2 ^ 32 end.
Definition good_target (t : target) : Prop :=
  match t with
  | ByHash h => len h = 32
  | ByName n => good_name 299 n
  | ByHashV h v => len h = 32 /\ good_ver v
  | ByNameV n v => good_name 299 n /\ good_ver v
  end.
Definition good_session (s : session) : Prop :=
  Forall good_arg (args_of s) /\
  match s with
  | Module w _ => len w <= 32
  | Stored t ep _ => good_target t /\ good_name 99 ep
  | Transfer _ => True
  end.
Definition good_approval (a : approval) : Prop :=
  (ap_alg a = 1 \/ ap_alg a = 2) /\ len (ap_key a) = key_len (ap_alg a) /\ len (ap_sig a) = 64.

(** [H] is the hash function of the chain. *)
Record good_deploy (H : list Z -> list Z) (d : deploy) : Prop := {
  gd_header : good_header (d_header d);
  gd_hash : d_hash d = H (enc_header (d_header d));
  gd_hlen : len (d_hash d) = 32;
  gd_body : h_bodyhash (d_header d) = H (enc_body d);
  gd_pay : len (p_amount (d_payment d)) <= 64;
  gd_session : good_session (d_session d);
  gd_approvals : Forall good_approval (d_approvals d);
  gd_napp : len (d_approvals d) <= 100;
  gd_bytes : Forall (fun b => 0 <= b < 256) (enc_deploy d);
  gd_size : len (enc_tx d) < 65536 }.

(** * The review *)
Definition is_account_type (t : cltype) : bool :=
  match t with Prim 11 | Prim 12 | CByteArray _ | Prim 22 => true | _ => false end.
Definition is_id_type (t : cltype) : bool :=
  match t with Prim 5 | COption (Prim 5) => true | _ => false end.
Definition is_amount_type (t : cltype) : bool := match t with Prim 4 | Prim 8 => true | _ => false end.
Definition is_key_type (t : cltype) : bool := match t with Prim 22 => true | _ => false end.
Definition only (ok : cltype -> bool) (v : cltype -> list Z -> option view) (t : cltype) (val : list Z) :=
  if ok t then v t val else None.

Definition account_arg := want (only is_account_type arg_view).
Definition key_arg := want (only is_key_type arg_view).

(** Native transfer with the arguments amount, id, target (and source). *)
Definition transfer_review (expert : bool) (l : list arg) : option (list line) :=
  let target := account_arg "Target" "target" l in
  let amount := want (only (fun t => match t with Prim 8 => true | _ => false end) amount_view)
                     "Amount" "amount" l in
  let id := want (only is_id_type arg_view) "ID" "id" l in
  let source := account_arg "From" "source" l in
  if len l =? 3 then
    match all [target; amount; id] with
    | Some r => Some (if expert then r else firstn 2 r)
    | None => None
    end
  else if len l =? 4 then
    match all [source; target; amount; id] with
    | Some r => Some (if expert then r else firstn 2 (tl r))
    | None => None
    end
  else None.

Inductive operation := ODelegate | OUndelegate | ORedelegate.
Definition operation_of (entry : list Z) : option operation :=
  if list_eq_dec Z.eq_dec entry (text "delegate") then Some ODelegate
  else if list_eq_dec Z.eq_dec entry (text "undelegate") then Some OUndelegate
  else if list_eq_dec Z.eq_dec entry (text "redelegate") then Some ORedelegate
  else None.
Definition op_text (o : operation) : string :=
  match o with ODelegate => "Delegate" | OUndelegate => "Undelegate" | ORedelegate => "Redelegate" end.

Definition delegation_review (o : operation) (l : list arg) : option (list line) :=
  let amount := want (only is_amount_type amount_view) "Amount" "amount" l in
  match o with
  | ORedelegate => all [key_arg "Delegator" "delegator" l; key_arg "Old" "validator" l;
                        key_arg "New" "new_validator" l; amount]
  | _ => all [key_arg "Delegator" "delegator" l; key_arg "Validator" "validator" l; amount]
  end.
Definition op_args (o : operation) : Z := match o with ORedelegate => 4 | _ => 3 end.

(** The arguments with a meaning of their own have the expected types. *)
Definition plain_types (l : list arg) : bool :=
  typed_if_present is_amount_type "amount" l && typed_if_present is_key_type "delegator" l
  && typed_if_present is_key_type "validator" l.
Definition has_delegation_args (l : list arg) : bool :=
  has "amount" l && has "delegator" l && has "validator" l.

Definition version_of (v : option Z) : Z := match v with Some n => n | None => 0 end.
Definition target_review (expert : bool) (t : target) : list line :=
  match t with
  | ByHash h => [ln "Execution" (Words (text "by-hash")); ln "Address" (Hex h)]
  | ByName n => [ln "Execution" (Words (text "by-name")); ln "Name" (Text n)]
  | ByHashV h v => [ln "Execution" (Words (text "by-hash-versioned")); ln "Address" (Hex h)]
                   ++ (if expert then [ln "Version" (Number (version_of v))] else [])
  | ByNameV n v => [ln "Execution" (Words (text "by-name-versioned")); ln "Name" (Text n)]
                   ++ (if expert then [ln "Version" (Number (version_of v))] else [])
  end.

(** Amount (when there is one) and the hash of all the arguments. *)
Definition generic_args_review (l : list arg) : option (list line) :=
  let h := ln "Args hash" (ArgsHash (text "execution") (enc_args l)) in
  if has "amount" l then all [want (only is_amount_type amount_view) "Amount" "amount" l; Some h]
  else Some [h].

Definition app2 {A} (a : list A) (b : option (list A)) : option (list A) :=
  match b with Some r => Some (a ++ r) | None => None end.

(** The operation a session is recognised as. *)
Definition stored_op (entry : list Z) (l : list arg) : option operation :=
  if has_delegation_args l then operation_of entry else None.
Definition auction_op (l : list arg) : option operation :=
  match find_arg (text "auction") l with
  | Some a =>
      if match a_ty a with Prim 10 => true | _ => false end && (len (a_val a) <=? 100) then
        match a_val a with
        | _ :: _ :: _ :: _ :: nm =>
            if list_eq_dec Z.eq_dec (a_val a) (lv nm) then
              match operation_of nm with
              | Some ORedelegate => if has "new_validator" l then Some ORedelegate else None
              | Some o => if has "new_validator" l then None else Some o
              | None => None
              end
            else None
        | _ => None
        end
      else None
  | None => None
  end.

Definition code_review (H : list Z -> list Z) (w : list Z) : list line :=
  [ln "Execution" (Words (text "contract")); ln "Cntrct hash" (Hex (H w))].

(** The lines for the session; [None]: not a session this specification
    describes. *)
Definition session_review (H : list Z -> list Z) (expert : bool) (s : session) : option (list line) :=
  match s with
  | Transfer l => transfer_review expert l
  | Stored t ep l =>
      if negb (plain_types l) then None
      else match stored_op ep l with
      | Some o =>
          if len l =? op_args o
          then app2 (if expert then target_review true t else []) (delegation_review o l)
          else None
      | None =>
          if (if list_eq_dec Z.eq_dec ep (text "redelegate") then true else false)
             && negb (has "new_validator" l && typed_if_present is_key_type "new_validator" l) then None
          else app2 (target_review expert t ++ (if expert then [ln "Entry-point" (Text ep)] else []))
                    (generic_args_review l)
      end
  | Module w l =>
      if negb (plain_types l) then None
      else if has "auction" l then
        match auction_op l with
        | Some o => app2 (if expert then code_review H w else [])
                         (delegation_review o (firstn (Z.to_nat (op_args o)) l))
        | None => None
        end
      else if negb (typed_if_present is_key_type "new_validator" l) then None
      else app2 (code_review H w) (generic_args_review l)
  end.

Definition type_text (s : session) : string :=
  match s with
  | Transfer _ => "Token transfer"
  | Stored _ ep l => match stored_op ep l with Some o => op_text o | None => "Contract execution" end
  | Module _ l => match auction_op l with Some o => op_text o | None => "Contract execution" end
  end.

(** The lines every review has around those of the session. *)
Definition around (expert : bool) (d : deploy) (s : list line) : list line :=
  let h := d_header d in
  [ln "Txn hash" (Hex (d_hash d)); ln "Type" (Words (text (type_text (d_session d))));
   ln "Chain ID" (Text (h_chain h)); ln "Account" (KeyText (h_alg h) (h_key h))]
  ++ (if expert then
        [ln "Timestamp" (Time (h_time h / 1000)); ln "Ttl" (Ttl (h_ttl h / 1000));
         ln "Gas price" (Number (h_gas h)); ln "Deps #" (Number (len (h_deps h)))]
      else [])
  ++ [ln "Fee" (Motes (value (p_amount (d_payment d))))]
  ++ s
  ++ (if expert then [ln "Approvals #" (Number (len (d_approvals d)))] else []).

Definition review (H : list Z -> list Z) (expert : bool) (d : deploy) : option (list line) :=
  match session_review H expert (d_session d) with
  | None => None
  | Some s => Some (around expert d s)
  end.

(** The first argument called [name] has an admitted type and presents as [v]. *)
Definition carries (l : list arg) (name : string) (ok : cltype -> bool)
                   (view_of : cltype -> list Z -> option view) (v : view) : Prop :=
  exists a, find_arg (text name) l = Some a /\ ok (a_ty a) = true /\ view_of (a_ty a) (a_val a) = Some v.

(** Building a deploy with its hashes. *)
Definition seal (H : list Z -> list Z) (alg : Z) (key : list Z) (time ttl gas : Z) (deps : list (list Z))
                (chain : list Z) (p : payment) (s : session) (aps : list approval) : deploy :=
  let h := Header alg key time ttl gas (H (enc_payment p ++ enc_session s)) deps chain in
  Deploy h (H (enc_header h)) p s aps.

End SD.
