(** Specification of what is shown of the form of a TransactionV1 (SpecForm),
    whatever its redundant numbers.  Nothing in this file refers to the model. *)
From Verif Require Export Spec SpecText SpecDeploy SpecTx SpecLayout SpecRaw SpecForm.

Module SW.
Import S SX SL SR SF.

(** The bytes [data] begin with the form [u] with the numbers [k]; of its last
    signature bytes at the end may be missing. *)
Definition begins (data : list Z) (k : numbers) (u : form) : Prop :=
  form_ok u /\ numbers_ok k u /\
  exists rest cut, data ++ cut = form_bytes k u ++ rest /\ (cut = [] \/ rest = []) /\ missing (f_approvals u) cut.
(** The same parts, but for the approvals of which only the number is the same,
    and the same numbers. *)
Record same_form (k : numbers) (u : form) (k' : numbers) (u' : form) : Prop := {
  sf_hash : f_hash u = f_hash u'; sf_init : f_initiator u = f_initiator u'; sf_time : f_time u = f_time u';
  sf_ttl : f_ttl u = f_ttl u'; sf_chain : f_chain u = f_chain u'; sf_pay : f_price u = f_price u';
  sf_arguments : f_args u = f_args u'; sf_target : f_target u = f_target u'; sf_entry : f_entry u = f_entry u';
  sf_count : len (f_approvals u) = len (f_approvals u');
  sf_tables : n_top k = n_top k' /\ n_payload k = n_payload k' /\ n_initiator k = n_initiator k' /\ n_price k = n_price k';
  sf_sections : n_args k = n_args k' /\ n_target k = n_target k' /\ n_entry k = n_entry k' /\ n_sched k = n_sched k';
  sf_inner : match f_target u with
             | Native => True
             | XStored _ _ => n_id k = n_id k' /\ n_runtime k = n_runtime k'
             | Session _ _ _ => n_runtime k = n_runtime k'
             end }.

(** Number of bytes before the body, and before the arguments proper (after
    their count, or after the length of raw bytes). *)
Definition before_body (k : numbers) (u : form) : Z :=
  len (heading (n_top k)) + len (f_hash u) + len (heading (n_payload k))
  + len (under (n_initiator k) (initiator_fields (f_initiator u))) + 8 + 8 + len (lv (f_chain u))
  + len (under (n_price k) (price_fields (f_price u))).
Definition args_pos (k : numbers) (u : form) : Z := before_body k u + 15.

(** The bytes under the line "Args hash": of raw bytes these; of named arguments
    as many bytes from their count on as the length of the section, less one,
    says, modulo 2^32. *)
Definition digested (k : numbers) (u : form) (data bs : list Z) : Prop :=
  match f_args u with
  | ARaw b => bs = b
  | ANamed _ => here data (args_pos k u - 4) bs /\ len bs = (n_args k - 1) mod 2 ^ 32
  end.

(** These bytes lie in the payload, if they are shown. *)
Definition inside (k : numbers) (u : form) : Prop :=
  match f_entry u, f_args u with
  | Custom _, ANamed _ => 1 <= n_args k /\ args_pos k u - 5 + n_args k <= len (heading (n_top k) ++ f_hash u ++ form_payload k u)
  | _, _ => True
  end.

Definition same_price (p : price) (q : pricing) : Prop :=
  match p, q with
  | PClassic a g _, Classic b h _ => a = b /\ g = h
  | PFixed g f, Fixed h i => g = h /\ f = i
  | PPrepaid r, Prepaid s => r = s
  | _, _ => False
  end.
Definition raw_of (a : S.arg) : raw_arg := RawArg (a_name a) (a_val a) (enc_type (a_ty a)).

(** [t] is a transaction with the parts of [u], so far as they are shown: the
    arguments of a native operation, the bytes that are hashed for a custom
    entry point. *)
Record depicts (k : numbers) (u : form) (data : list Z) (t : transaction) : Prop := {
  de_hash : x_hash t = f_hash u;
  de_initiator : x_initiator (x_payload t) = f_initiator u;
  de_time : x_time (x_payload t) = f_time u; de_ttl : x_ttl (x_payload t) = f_ttl u;
  de_chain : x_chain (x_payload t) = f_chain u;
  de_pricing : same_price (f_price u) (x_pricing (x_payload t));
  de_target : x_target (x_payload t) = f_target u;
  de_entry : x_entry (x_payload t) = f_entry u;
  de_args : match f_entry u with
            | Op _ => exists l, x_args (x_payload t) = Named l /\ f_args u = ANamed (List.map raw_of l)
            | Custom _ => exists bs, x_args (x_payload t) = Raw bs /\ digested k u data bs
            | Call => True
            end;
  de_approvals : len (x_approvals t) = len (f_approvals u) }.

(** What must hold of the parts to have a review: texts of at most 99
    characters without NUL, arguments of supported types with names of at most
    300 characters, less than 256 approvals. *)
Record presentable (t : transaction) : Prop := {
  pr_chain : SD.good_name 99 (x_chain (x_payload t));
  pr_entry : good_entry (x_entry (x_payload t));
  pr_target : match x_target (x_payload t) with XStored i _ => good_id i | _ => True end;
  pr_args : good_xargs (x_args (x_payload t));
  pr_approvals : len (x_approvals t) < 256 }.

(** In expert mode a version is needed (C19). *)
Definition version_known (expert : bool) (t : xtarget) : Prop :=
  expert = true -> match t with XStored (SD.ByHashV _ v) _ | XStored (SD.ByNameV _ v) _ => v <> None /\ v <> Some (2 ^ 32 - 1) | _ => True end.
(** The types of the arguments of a native operation are those the device
    supports. *)
Definition plain_types (u : form) : Prop :=
  match f_entry u, f_args u with Op _, ANamed l => Forall (fun r => ~ odd_type (r_ty r)) l | _, _ => True end.

(** The name, read up to the first NUL, is [key]; the first argument of such a
    name. *)
Definition reads (name key : list Z) : Prop := ~ In 0 key /\ (name = key \/ exists more, name = key ++ 0 :: more).
Definition first_named (key : list Z) (l : list raw_arg) (r : raw_arg) : Prop :=
  exists before after, l = before ++ r :: after /\ reads (r_name r) key /\ Forall (fun q => ~ reads (r_name q) key) before.
End SW.
