(** Specification of transactions that look alike, for properties C46 to C53.
    Nothing in this file refers to the model. *)
From Verif Require Export Spec SpecText SpecDeploy SpecTx.

Module SK.
Import S ST SD SX.

(** A U512 amount; any type that can hold an account. *)
Definition u512_type (t : cltype) : bool := match t with Prim 8 => true | _ => false end.

(** [d] is a native transfer with the standard arguments. *)
Record transfers (d : deploy) (source : option view) (tgt amount id : view) : Prop := {
  tr_args : exists l, d_session d = Transfer l /\ len l = 3 + match source with None => 0 | Some _ => 1 end /\
    carries l "target" is_account_type arg_view tgt /\ carries l "amount" u512_type amount_view amount /\
    carries l "id" is_id_type arg_view id /\
    match source with None => True | Some s => carries l "source" is_account_type arg_view s end }.

(** [d] delegates, undelegates or redelegates with the standard arguments; [nv]
    only matters for redelegations. *)
Definition delegation_args (l : list arg) (op : operation) (dl v nv amount : view) : Prop :=
  carries l "delegator" is_key_type arg_view dl /\ carries l "validator" is_key_type arg_view v /\
  (op = ORedelegate -> carries l "new_validator" is_key_type arg_view nv) /\
  carries l "amount" is_amount_type amount_view amount.
Inductive delegates (d : deploy) (op : operation) (dl v nv amount : view) : Prop :=
| ByContract t ep l : d_session d = Stored t ep l -> operation_of ep = Some op -> len l = op_args op ->
    delegation_args l op dl v nv amount -> delegates d op dl v nv amount
| ByModule w l : d_session d = Module w l -> auction_op l = Some op -> plain_types l = true ->
    delegation_args (firstn (Z.to_nat (op_args op)) l) op dl v nv amount -> delegates d op dl v nv amount.

(** Two values of one kind: both public keys, both plain bytes, ... *)
Definition kin (a b : view) : Prop :=
  match a, b with
  | Hex _, Hex _ | KeyText _ _, KeyText _ _ | Text _, Text _ | Words _, Words _
  | Motes _, Motes _ | Number _, Number _ | Ttl _, Ttl _ => True
  | _, _ => False
  end.
Definition kin_opt (a b : option view) : Prop :=
  match a, b with Some v, Some w => kin v w | _, _ => True end.

(** What all deploys have in common on screen; [tf] writes dates. *)
Record same_context (tf : Z -> option (list Z)) (expert : bool) (a b : deploy) : Prop := {
  sc_chain : h_chain (d_header a) = h_chain (d_header b);
  sc_account : h_alg (d_header a) = h_alg (d_header b) /\ h_key (d_header a) = h_key (d_header b);
  sc_fee : value (p_amount (d_payment a)) = value (p_amount (d_payment b));
  sc_expert : expert = true ->
    tf (h_time (d_header a) / 1000) = tf (h_time (d_header b) / 1000) /\
    h_ttl (d_header a) / 1000 = h_ttl (d_header b) / 1000 /\
    h_gas (d_header a) = h_gas (d_header b) /\
    len (h_deps (d_header a)) = len (h_deps (d_header b)) /\
    len (d_approvals a) = len (d_approvals b) }.

(** * TransactionV1 *)
(** The arguments a native operation shows one by one, with their labels. *)
Definition op_shown (expert : bool) (n : native) : list (string * string) :=
  match n with
  | NTransfer => ("Target", "target") :: ("Amount", "amount")
                 :: (if expert then [("From", "source"); ("ID", "id")] else [])
  | NAddBid => [("Pk", "public_key"); ("Deleg. rate", "delegation_rate"); ("Amount", "amount");
                ("Min. amount", "minimum_delegation_amount"); ("Max. amount", "maximum_delegation_amount");
                ("Rsrvd slots", "reserved_slots")]
  | NWithdrawBid => [("Pk", "public_key"); ("Amount", "amount")]
  | NDelegate | NUndelegate => [("Delegator", "delegator"); ("Validator", "validator"); ("Amount", "amount")]
  | NRedelegate => [("Delegator", "delegator"); ("Old", "validator"); ("New", "new_validator"); ("Amount", "amount")]
  | NActivateBid => [("Validtr pk", "validator_public_key")]
  | NChangeKey => [("Pk", "public_key"); ("New pk", "new_public_key")]
  | NAddReservations => []
  | NCancelReservations => [("Validator", "validator")]
  | NBurn => [("Source", "source"); ("Amount", "amount")]
  end%string.
(** How the value of argument [name] is read. *)
Definition op_view (name : string) (a : arg) : option view :=
  if String.eqb name "amount" then (if u512_type (a_ty a) then amount_view (a_ty a) (a_val a) else None)
  else arg_view (a_ty a) (a_val a).
(** The arguments [la] and [lb] agree in everything operation [n] shows: the
    same arguments are there, and those of the same kind are equal. *)
Definition same_args (expert : bool) (n : native) (la lb : list arg) : Prop :=
  forall label name, In (label, name) (op_shown expert n) ->
  has name la = has name lb /\
  forall a b v w, find_arg (text name) la = Some a -> find_arg (text name) lb = Some b ->
    op_view name a = Some v -> op_view name b = Some w -> kin v w -> v = w.
(** The vectors of reservations and delegators: only a hash is shown. *)
Definition op_vector (n : native) : option string :=
  match n with NAddReservations => Some "reservations"%string | NCancelReservations => Some "delegators"%string | _ => None end.
Definition same_vector (H : list Z -> list Z) (n : native) (la lb : list arg) : Prop :=
  forall name a b, op_vector n = Some name -> find_arg (text name) la = Some a -> find_arg (text name) lb = Some b ->
    H (a_val a) = H (a_val b).

(** The same contract, as far as it is shown: of an address only the decimal
    values of its bytes, one after the other. *)
Definition same_digits (a b : list Z) : Prop :=
  exists p q, Forall2 decimal a p /\ Forall2 decimal b q /\ List.concat p = List.concat q.
Definition same_contract (expert : bool) (a b : SD.target) : Prop :=
  match a, b with
  | ByHash h, ByHash k => same_digits h k
  | ByName n, ByName m => n = m
  | ByHashV h v, ByHashV k w => same_digits h k /\ (expert = true -> v = w)
  | ByNameV n v, ByNameV m w => n = m /\ (expert = true -> v = w)
  | _, _ => False
  end.

(** What is visible of the pricing. *)
Definition same_pricing (a b : pricing) : Prop :=
  match a, b with
  | Classic m g _, Classic n h _ => m = n /\ g = h
  | Fixed g _, Fixed h _ => g = h
  | Prepaid r, Prepaid s => r = s
  | _, _ => False
  end.

Record same_frame (tf : Z -> option (list Z)) (expert : bool) (a b : transaction) : Prop := {
  sf_chain : x_chain (x_payload a) = x_chain (x_payload b);
  sf_initiator : x_initiator (x_payload a) = x_initiator (x_payload b);
  sf_expert : expert = true ->
    tf (x_time (x_payload a) / 1000) = tf (x_time (x_payload b) / 1000) /\
    x_ttl (x_payload a) / 1000 = x_ttl (x_payload b) / 1000 /\
    same_pricing (x_pricing (x_payload a)) (x_pricing (x_payload b)) /\
    len (x_approvals a) = len (x_approvals b) }.

(** What two transactions have in common besides. *)
Definition same_deed (H : list Z -> list Z) (expert : bool) (a b : payload) : Prop :=
  match x_entry a, x_entry b with
  | Op n, Op m => n = m /\ same_args expert n (named (x_args a)) (named (x_args b))
                  /\ same_vector H n (named (x_args a)) (named (x_args b))
  | Custom e, Custom f => e = f /\ H (arg_bytes (x_args a)) = H (arg_bytes (x_args b)) /\
      match x_target a, x_target b with
      | XStored i _, XStored j _ => same_contract expert i j
      | _, _ => False
      end
  | _, _ => False
  end.

(** The payload with another pricing, or another target. *)
Definition reprice (p : payload) (q : pricing) : payload :=
  Payload (x_initiator p) (x_time p) (x_ttl p) (x_chain p) q (x_args p) (x_target p) (x_entry p).
Definition retarget (p : payload) (t : xtarget) : payload :=
  Payload (x_initiator p) (x_time p) (x_ttl p) (x_chain p) (x_pricing p) (x_args p) t (x_entry p).
(** The same header, and as many approvals. *)
Record same_header (a b : transaction) : Prop := {
  sh_initiator : x_initiator (x_payload a) = x_initiator (x_payload b);
  sh_time : x_time (x_payload a) = x_time (x_payload b);
  sh_ttl : x_ttl (x_payload a) = x_ttl (x_payload b);
  sh_chain : x_chain (x_payload a) = x_chain (x_payload b);
  sh_pricing : x_pricing (x_payload a) = x_pricing (x_payload b);
  sh_approvals : len (x_approvals a) = len (x_approvals b) }.
Definition session_target (t : xtarget) : Prop := exists u r w, t = Session u r w.

(** Contracts of deploys: the version counts as 0 when there is none. *)
Definition same_target (a b : SD.target) : Prop :=
  match a, b with
  | ByHash h, ByHash k => h = k
  | ByName n, ByName m => n = m
  | ByHashV h v, ByHashV k w => h = k /\ version_of v = version_of w
  | ByNameV n v, ByNameV m w => n = m /\ version_of v = version_of w
  | _, _ => False
  end.

(** What is visible of two transactions that carry code. *)
Definition same_session (H : list Z -> list Z) (expert : bool) (a b : payload) : Prop :=
  match x_entry a, x_entry b with
  | Call, Call => True
  | Op n, Op m => n = m /\ same_args expert n (named (x_args a)) (named (x_args b))
                  /\ same_vector H n (named (x_args a)) (named (x_args b))
  | Custom _, Custom _ => H (arg_bytes (x_args a)) = H (arg_bytes (x_args b))
  | _, _ => False
  end.

End SK.
