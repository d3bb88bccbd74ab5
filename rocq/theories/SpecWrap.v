(** Specification of what appears of the form of a TransactionV1 (SpecForm) when
    its numbers do not fit their variables: of the position of the arguments,
    the length of the chain name and the number of approvals only the last eight
    bits count, and texts end at a NUL or after 99 characters.  Nothing in this
    file refers to the model. *)
From Verif Require Export Spec SpecText SpecDeploy SpecTx SpecLayout SpecRaw SpecForm SpecShow.

Module SG.
Import S SX SL SR SF SW.

Fixpoint before_nul (s : list Z) : list Z :=
  match s with [] => [] | c :: r => if c =? 0 then [] else c :: before_nul r end.
Definition visible (n : list Z) : list Z := firstn 99 (before_nul n).
Definition cut_chain (n : list Z) : list Z := firstn (Z.to_nat (len n mod 256)) n.
Definition visible_id (i : SD.target) : SD.target :=
  match i with
  | SD.ByName n => SD.ByName (visible n)
  | SD.ByNameV n v => SD.ByNameV (visible n) v
  | _ => i
  end.
Definition visible_target (t : xtarget) : xtarget := match t with XStored i r => XStored (visible_id i) r | _ => t end.
Definition visible_entry (e : entry) : entry := match e with Custom n => Custom (visible n) | _ => e end.

(** Where arguments are looked for, and how many. *)
Definition seen_pos (k : numbers) (u : form) : Z := args_pos k u mod 256.
Definition announced (u : form) : Z := match f_args u with ANamed l => len l | ARaw _ => 0 end.
(** The bytes under the line "Args hash". *)
Definition seen_bytes (k : numbers) (u : form) (data bs : list Z) : Prop :=
  match f_args u with
  | ARaw b => here data (seen_pos k u) bs /\ len bs = len b
  | ANamed _ => here data (seen_pos k u - 4) bs /\ len bs = (n_args k - 1) mod 2 ^ 32
  end.

(** [t] is a transaction with the parts of [u] as they appear: the arguments
    are those found at [seen_pos]. *)
Record appears (k : numbers) (u : form) (data : list Z) (t : transaction) : Prop := {
  ap_hash : x_hash t = f_hash u;
  ap_initiator : x_initiator (x_payload t) = f_initiator u;
  ap_time : x_time (x_payload t) = f_time u; ap_ttl : x_ttl (x_payload t) = f_ttl u;
  ap_chain : x_chain (x_payload t) = before_nul (cut_chain (f_chain u));
  ap_pricing : same_price (f_price u) (x_pricing (x_payload t));
  ap_target : x_target (x_payload t) = visible_target (f_target u);
  ap_entry : x_entry (x_payload t) = visible_entry (f_entry u);
  ap_args : match f_entry u with
            | Op _ => exists l, x_args (x_payload t) = Named l /\ Forall SD.good_arg l /\ len l = announced u /\ here data (seen_pos k u) (enc_arg_list l)
            | Custom _ => exists bs, x_args (x_payload t) = Raw bs /\ seen_bytes k u data bs
            | Call => True
            end;
  ap_approvals : len (x_approvals t) = len (f_approvals u) mod 256 }.

(** The chain name can be shown: at most 100 bytes by its last eight bits, with a
    NUL if it is 100.  In expert mode its length has to fit (C51). *)
Definition chain_shown (expert : bool) (n : list Z) : Prop :=
  (len n mod 256 < 100 \/ len n mod 256 = 100 /\ In 0 (cut_chain n)) /\ (expert = true -> len n < 256).
(** The first lines, as they appear. *)
Definition seen_head (expert : bool) (u : form) : list xline :=
  [xl "Txn hash" (SD.Hex (f_hash u)); xl "Type" (SD.Words (text (entry_text (f_entry u))));
   xl "Chain ID" (SD.Text (before_nul (cut_chain (f_chain u)))); xl "Account" (SD.Hex (init_bytes (f_initiator u)))]
  ++ (if expert then [xl "Timestamp" (SD.Time (f_time u / 1000)); xl "Ttl" (SD.Ttl (f_ttl u / 1000))] else []).
(** Headers of deploys with any chain name, and the header as it appears. *)
Record form_header (h : SD.header) : Prop := {
  fh_alg : SD.h_alg h = 1 \/ SD.h_alg h = 2;
  fh_key : len (SD.h_key h) = SD.key_len (SD.h_alg h);
  fh_time : 0 <= SD.h_time h < 2 ^ 64; fh_ttl : 0 <= SD.h_ttl h < 2 ^ 64; fh_gas : 0 <= SD.h_gas h < 2 ^ 64;
  fh_bodyhash : len (SD.h_bodyhash h) = 32;
  fh_deps : Forall (fun x => len x = 32) (SD.h_deps h) }.
Definition seen_header (h : SD.header) : SD.header :=
  SD.Header (SD.h_alg h) (SD.h_key h) (SD.h_time h) (SD.h_ttl h) (SD.h_gas h) (SD.h_bodyhash h) (SD.h_deps h) (before_nul (SD.h_chain h)).
(** What is looked at as arguments lies in the hash and the payload, not in the
    table before them or behind. *)
Definition signed_range (k : numbers) (u : form) (i n : Z) : Prop :=
  len (heading (n_top k)) <= i /\ i + n <= len (heading (n_top k) ++ f_hash u ++ form_payload k u).
Definition within (k : numbers) (u : form) (t : transaction) : Prop :=
  match f_entry u, x_args (x_payload t) with
  | Op _, Named l => signed_range k u (seen_pos k u) (len (enc_arg_list l))
  | Custom _, Raw bs => signed_range k u (match f_args u with ARaw _ => seen_pos k u | ANamed _ => seen_pos k u - 4 end) (len bs)
  | _, _ => True
  end.
End SG.
