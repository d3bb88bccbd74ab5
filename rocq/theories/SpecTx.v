(** Specification of TransactionV1: abstract syntax, binary encoding, and the
    review a user must see, written from the Casper binary format (call-table
    serialisation).  Nothing in this file refers to the model. *)
From Verif Require Export Spec SpecText SpecDeploy.

Module SX.
Import S ST SD.

(** * Call tables *)
(** A table of fields: their number, then index and offset of each one, then
    the total size; after that the fields themselves. *)
Fixpoint entries (i off : Z) (fs : list (list Z)) : list Z :=
  match fs with
  | [] => []
  | f :: r => le 2 i ++ le 4 off ++ entries (i + 1) (off + len f) r
  end.
Definition head (fs : list (list Z)) : list Z :=
  le 4 (len fs) ++ entries 0 0 fs ++ le 4 (len (List.concat fs)).
Definition table (fs : list (list Z)) : list Z := head fs ++ List.concat fs.

(** * Transactions *)
Inductive initiator := PublicKey (alg : Z) (key : list Z) | AccountHash (h : list Z).
Definition init_bytes (a : initiator) : list Z :=
  match a with PublicKey alg key => alg :: key | AccountHash h => h end.
Definition enc_initiator (a : initiator) : list Z :=
  table [[match a with PublicKey _ _ => 0 | AccountHash _ => 1 end]; init_bytes a].

Inductive pricing :=
| Classic (amount gas : Z) (standard : bool)
| Fixed (gas factor : Z)
| Prepaid (receipt : list Z).
Definition bool_byte (b : bool) : Z := if b then 1 else 0.
Definition enc_pricing (p : pricing) : list Z :=
  match p with
  | Classic a g s => table [[0]; le 8 a; [g]; [bool_byte s]]
  | Fixed g f => table [[1]; [g]; [f]]
  | Prepaid r => table [[2]; r]
  end.

Inductive args := Named (l : list arg) | Raw (bs : list Z).
Definition enc_xargs (a : args) : list Z :=
  match a with Named l => 0 :: enc_args l | Raw bs => 1 :: lv bs end.
Definition named (a : args) : list arg := match a with Named l => l | Raw _ => [] end.

Inductive runtime := VmV1 | VmV2 (value : Z) (seed : option (list Z)).
Definition enc_runtime (r : runtime) : list Z :=
  match r with
  | VmV1 => table [[0]]
  | VmV2 v s => table [[1]; le 8 v; match s with None => [0] | Some h => 1 :: h end]
  end.

Inductive xtarget :=
| Native
| XStored (t : SD.target) (r : runtime)
| Session (upgrade : bool) (r : runtime) (code : list Z).
Definition enc_id (t : SD.target) : list Z :=
  match t with
  | ByHash h => table [[0]; h]
  | ByName n => table [[1]; lv n]
  | ByHashV h v => table [[2]; h; enc_ver v]
  | ByNameV n v => table [[3]; lv n; enc_ver v]
  end.
Definition enc_xtarget (t : xtarget) : list Z :=
  match t with
  | Native => table [[0]]
  | XStored i r => table [[1]; enc_id i; enc_runtime r]
  | Session u r w => table [[2]; [bool_byte u]; enc_runtime r; lv w]
  end.

Inductive native :=
| NTransfer | NAddBid | NWithdrawBid | NDelegate | NUndelegate | NRedelegate
| NActivateBid | NChangeKey | NAddReservations | NCancelReservations | NBurn.
Definition native_tag (n : native) : Z :=
  match n with
  | NTransfer => 2 | NAddBid => 3 | NWithdrawBid => 4 | NDelegate => 5 | NUndelegate => 6
  | NRedelegate => 7 | NActivateBid => 8 | NChangeKey => 9 | NAddReservations => 10
  | NCancelReservations => 11 | NBurn => 12
  end.
Inductive entry := Call | Custom (name : list Z) | Op (n : native).
Definition enc_entry (e : entry) : list Z :=
  match e with
  | Call => table [[0]]
  | Custom n => table [[1]; lv n]
  | Op n => table [[native_tag n]]
  end.

Record payload := Payload {
  x_initiator : initiator; x_time : Z; x_ttl : Z; x_chain : list Z; x_pricing : pricing;
  x_args : args; x_target : xtarget; x_entry : entry }.
(** scheduling: Standard *)
Definition enc_fields (p : payload) : list Z :=
  le 4 4 ++ le 2 0 ++ lv (enc_xargs (x_args p)) ++ le 2 1 ++ lv (enc_xtarget (x_target p))
  ++ le 2 2 ++ lv (enc_entry (x_entry p)) ++ le 2 3 ++ lv (table [[0]]).
Definition payload_fields (p : payload) : list (list Z) :=
  [enc_initiator (x_initiator p); le 8 (x_time p); le 8 (x_ttl p); lv (x_chain p);
   enc_pricing (x_pricing p); enc_fields p].
Definition enc_payload (p : payload) : list Z := table (payload_fields p).

Definition enc_approvals (l : list approval) : list Z :=
  le 4 (len l) ++ List.concat (List.map enc_approval l).
Record transaction := Transaction { x_hash : list Z; x_payload : payload; x_approvals : list approval }.
Definition enc_transaction (t : transaction) : list Z :=
  table [x_hash t; enc_payload (x_payload t); enc_approvals (x_approvals t)].
(** What the device receives: a format byte, then the transaction. *)
Definition enc_v1 (t : transaction) : list Z := 1 :: enc_transaction t.

(** * Well-formed transactions *)
Definition good_initiator (a : initiator) : Prop :=
  match a with
  | PublicKey alg key => (alg = 1 \/ alg = 2) /\ len key = key_len alg
  | AccountHash h => len h = 32
  end.
Definition good_pricing (p : pricing) : Prop :=
  match p with
  | Classic a g _ => 0 <= a < 2 ^ 64 /\ 0 <= g < 256
  | Fixed g f => 0 <= g < 256 /\ 0 <= f < 256
  | Prepaid r => len r = 32
  end.
Definition good_runtime (r : runtime) : Prop :=
  match r with
  | VmV1 => True
  | VmV2 v s => 0 <= v < 2 ^ 64 /\ match s with None => True | Some h => len h = 32 end
  end.
Definition good_id (t : SD.target) : Prop :=
  match t with
  | ByHash h => len h = 32
  | ByName n => good_name 99 n
  | ByHashV h v => len h = 32 /\ good_ver v
  | ByNameV n v => good_name 99 n /\ good_ver v
  end.
Definition good_xtarget (t : xtarget) : Prop :=
  match t with
  | Native => True
  | XStored i r => good_id i /\ good_runtime r
  | Session _ r _ => good_runtime r
  end.
Definition good_entry (e : entry) : Prop :=
  match e with Custom n => good_name 99 n | _ => True end.
Definition good_xargs (a : args) : Prop := Forall good_arg (named a).

Record good_payload (p : payload) : Prop := {
  gx_initiator : good_initiator (x_initiator p);
  gx_time : 0 <= x_time p < 2 ^ 64; gx_ttl : 0 <= x_ttl p < 2 ^ 64;
  gx_chain : good_name 99 (x_chain p);
  gx_pricing : good_pricing (x_pricing p);
  gx_args : good_xargs (x_args p);
  gx_target : good_xtarget (x_target p);
  gx_entry : good_entry (x_entry p) }.
Record good_transaction (H : list Z -> list Z) (t : transaction) : Prop := {
  gt_payload : good_payload (x_payload t);
  gt_hash : x_hash t = H (enc_payload (x_payload t));
  gt_hlen : len (x_hash t) = 32;
  gt_approvals : Forall good_approval (x_approvals t);
  gt_napp : len (x_approvals t) < 256;
  gt_bytes : Forall (fun b => 0 <= b < 256) (enc_transaction t);
  gt_size : len (enc_v1 t) < 65536 }.

(** Building a transaction with its hash. *)
Definition seal_v1 (H : list Z -> list Z) (p : payload) (aps : list approval) : transaction :=
  Transaction (H (enc_payload p)) p aps.

(** * The review *)
(** Values on screen besides those of deploys: a number on one page, a number
    in groups of three digits, and the decimal values of bytes one after the
    other. *)
Inductive xview := V (v : view) | Count (n : Z) | Grouped (n : Z) | ByteDigits (bs : list Z).
Definition xline := (list Z * xview)%type.
Definition xl (label : string) (v : view) : xline := (text label, V v).
Definition lift_lines (l : list line) : list xline := List.map (fun p => (fst p, V (snd p))) l.

Definition native_text (n : native) : string :=
  match n with
  | NTransfer => "Transfer" | NAddBid => "Add Bid" | NWithdrawBid => "Withdraw Bid"
  | NDelegate => "Delegate" | NUndelegate => "Undelegate" | NRedelegate => "Redelegate"
  | NActivateBid => "Activate Bid" | NChangeKey => "Change Bid PK"
  | NAddReservations => "Add Reservations" | NCancelReservations => "Cancel Reservations"
  | NBurn => "Burn"
  end.
Definition entry_text (e : entry) : string :=
  match e with Call => "Call" | Custom _ => "Contract Execution" | Op n => native_text n end.

(** One argument under a label; amounts have type U512 and are in motes. *)
Definition any_arg := want (only (fun _ => true) arg_view).
Definition u512_arg := want (only (fun t => match t with Prim 8 => true | _ => false end) amount_view).
(** A vector: its length, and the hash of the whole value. *)
Definition vector (H : list Z -> list Z) (label_len label_hash : string) (name : string) (l : list arg)
  : list (option line) :=
  match find_arg (text name) l with
  | Some a =>
      let n := value (firstn 4 (a_val a)) in
      if (4 <=? len (a_val a)) && (n <? 256)
      then [Some (ln label_len (Number n)); Some (ln label_hash (Hex (H (a_val a))))] else [None]
  | None => [None]
  end.

(** The arguments of a native operation, in the order of the review; in normal
    mode a transfer shows target and amount only. *)
Definition op_lines (H : list Z -> list Z) (expert : bool) (n : native) (l : list arg)
  : list (option line) :=
  let present label name := if has name l then [any_arg label name l] else [] in
  let amount := u512_arg "Amount" "amount" l in
  match n with
  | NTransfer =>
      if expert then present "From"%string "source"%string
                     ++ [any_arg "Target" "target" l; amount; any_arg "ID" "id" l]
      else [any_arg "Target" "target" l; amount]
  | NAddBid =>
      [any_arg "Pk" "public_key" l; any_arg "Deleg. rate" "delegation_rate" l; amount;
       any_arg "Min. amount" "minimum_delegation_amount" l;
       any_arg "Max. amount" "maximum_delegation_amount" l]
      ++ present "Rsrvd slots"%string "reserved_slots"%string
  | NWithdrawBid => [any_arg "Pk" "public_key" l; amount]
  | NDelegate | NUndelegate =>
      [any_arg "Delegator" "delegator" l; any_arg "Validator" "validator" l; amount]
  | NRedelegate =>
      present "Delegator"%string "delegator"%string ++ present "Old"%string "validator"%string
      ++ [any_arg "New" "new_validator" l] ++ (if has "amount" l then [amount] else [])
  | NActivateBid => [any_arg "Validtr pk" "validator_public_key" l]
  | NChangeKey => [any_arg "Pk" "public_key" l; any_arg "New pk" "new_public_key" l]
  | NAddReservations => vector H "Rsrv len" "Rsrv hash" "reservations" l
  | NCancelReservations => any_arg "Validator" "validator" l
                           :: vector H "Dlgtrs len" "Dlgtrs hash" "delegators" l
  | NBurn => [any_arg "Source" "source" l; amount]
  end.
(** The arguments that must be there even if they are not shown. *)
Definition op_required (n : native) : list string :=
  match n with NTransfer => ["amount"; "target"; "id"]%string | _ => [] end.
(** The operation has these arguments and no others. *)
Definition op_arity (n : native) (l : list arg) : bool :=
  match n with
  | NTransfer => len l =? 3 + (if has "source" l then 1 else 0)
  | NAddBid => len l =? 5 + (if has "reserved_slots" l then 1 else 0)
  | NWithdrawBid | NChangeKey | NCancelReservations | NBurn => len l =? 2
  | NDelegate | NUndelegate => len l =? 3
  | NRedelegate => len l =? 1 + (if has "delegator" l then 1 else 0)
                            + (if has "validator" l then 1 else 0) + (if has "amount" l then 1 else 0)
  | NActivateBid | NAddReservations => len l =? 1
  end.
Definition op_review (H : list Z -> list Z) (expert : bool) (n : native) (l : list arg) : option (list xline) :=
  if op_arity n l && forallb (fun name => has name l) (op_required n) then
    match all (op_lines H expert n l) with Some r => Some (lift_lines r) | None => None end
  else None.

(** A call of an entry point of a stored contract. *)
Definition arg_bytes (a : args) : list Z := match a with Named l => enc_args l | Raw bs => bs end.
Definition custom_review (H : list Z -> list Z) (expert : bool) (t : SD.target) (name : list Z) (a : args)
  : option (list xline) :=
  let tail := [xl "Entry-point" (Text name); xl "Args hash" (Hex (H (arg_bytes a)))] in
  let version v :=
    if expert then match v with
                   | Some n => if n =? 2 ^ 32 - 1 then None else Some [xl "Version" (Number n)]
                   | None => None
                   end
    else Some [] in
  let with_version v first := match version v with Some l => Some (first ++ l ++ tail) | None => None end in
  match t with
  | ByHash h => Some ([xl "Execution" (Words (text "by-hash")); (text "Address", ByteDigits h)] ++ tail)
  | ByName n => Some ([xl "Execution" (Words (text "by-name")); xl "Name" (Text n)] ++ tail)
  | ByHashV h v => with_version v [xl "Execution" (Words (text "by-hash-versioned")); (text "Address", ByteDigits h)]
  | ByNameV n v => with_version v [xl "Execution" (Words (text "by-name-versioned")); xl "Name" (Text n)]
  end.

Definition body_review (H : list Z -> list Z) (expert : bool) (p : payload) : option (list xline) :=
  match x_entry p, x_target p with
  | Op n, Native => match x_args p with Named l => op_review H expert n l | Raw _ => None end
  | Custom name, XStored t _ => custom_review H expert t name (x_args p)
  | _, _ => None
  end.

Definition pricing_lines (p : pricing) : list xline :=
  match p with
  | Classic a g _ => [(text "Payment", Grouped a); xl "Max gs prce" (Number g)]
  | Fixed g _ => [xl "Payment" (Words (text "Fixed")); xl "Max gs prce" (Number g)]
  | Prepaid r => [xl "Payment" (Words (text "Prepaid")); xl "Receipt" (Hex r)]
  end.

(** The lines of the body, with those every review has. *)
Definition frame (expert : bool) (t : transaction) (s : list xline) : list xline :=
  let p := x_payload t in
  [xl "Txn hash" (Hex (x_hash t)); xl "Type" (Words (text (entry_text (x_entry p))));
   xl "Chain ID" (Text (x_chain p)); xl "Account" (Hex (init_bytes (x_initiator p)))]
  ++ (if expert then [xl "Timestamp" (Time (x_time p / 1000)); xl "Ttl" (Ttl (x_ttl p / 1000))]
                     ++ pricing_lines (x_pricing p) else [])
  ++ s
  ++ (if expert then [(text "Approvals #", Count (len (x_approvals t)))] else []).
(** The lines before those of the body. *)
Definition top_lines (expert : bool) (t : transaction) : list xline :=
  firstn (if expert then 8 else 4) (frame expert t []).
Definition review (H : list Z -> list Z) (expert : bool) (t : transaction) : option (list xline) :=
  match body_review H expert (x_payload t) with
  | None => None
  | Some s => Some (frame expert t s)
  end.

(** What is shown of a transaction that does not call a stored contract when
    native operations and module code (Session) are not told apart: the
    operation's arguments, for a custom entry point the hash of the arguments,
    for the entry point Call nothing.  Used to state what goes unseen. *)
Definition bare_body (H : list Z -> list Z) (expert : bool) (p : payload) : option (list xline) :=
  match x_target p, x_entry p with
  | XStored _ _, _ => None
  | _, Call => Some []
  | _, Custom _ => Some [xl "Args hash" (Hex (H (arg_bytes (x_args p))))]
  | _, Op n => match x_args p with Named l => op_review H expert n l | Raw _ => None end
  end.
Definition bare_review (H : list Z -> list Z) (expert : bool) (t : transaction) : option (list xline) :=
  match bare_body H expert (x_payload t) with
  | None => None
  | Some s => Some (frame expert t s)
  end.

(** Number of bytes of the encoded transaction before the arguments proper
    (after their count, or after the length of raw bytes). *)
Definition before_args (t : transaction) : Z :=
  let p := x_payload t in
  len (head [x_hash t; enc_payload p; enc_approvals (x_approvals t)]) + len (x_hash t)
  + len (head (payload_fields p))
  + len (enc_initiator (x_initiator p)) + 8 + 8 + len (lv (x_chain p)) + len (enc_pricing (x_pricing p))
  + 4 + 2 + 4 + 1 + 4.

(** * What a transaction must contain to be accepted *)
(** The arguments a native operation must have; [true]: of type U512. *)
Definition mandatory (n : native) : list (string * bool) :=
  match n with
  | NTransfer => [("amount", true); ("target", false); ("id", false)]
  | NAddBid => [("public_key", false); ("delegation_rate", false); ("amount", true);
                ("minimum_delegation_amount", false); ("maximum_delegation_amount", false)]
  | NWithdrawBid => [("public_key", false); ("amount", true)]
  | NDelegate | NUndelegate => [("delegator", false); ("validator", false); ("amount", true)]
  | NRedelegate => [("new_validator", false)]
  | NActivateBid => [("validator_public_key", false)]
  | NChangeKey => [("public_key", false); ("new_public_key", false)]
  | NAddReservations => [("reservations", false)]
  | NCancelReservations => [("validator", false); ("delegators", false)]
  | NBurn => [("source", false); ("amount", true)]
  end%string.
Definition meets (l : list arg) (m : string * bool) : bool :=
  match find_arg (text (fst m)) l with
  | Some a => negb (snd m) || (tag (a_ty a) =? 8)
  | None => false
  end.
Definition complete (e : entry) (a : args) : bool :=
  match e with Op n => forallb (meets (named a)) (mandatory n) | _ => true end.
(** A stored contract is called by a custom entry point. *)
Definition callable (e : entry) (t : xtarget) : bool :=
  match e, t with Custom _, _ => true | _, XStored _ _ => false | _, _ => true end.
Definition acceptable (p : payload) : bool :=
  callable (x_entry p) (x_target p) && complete (x_entry p) (x_args p).

(** * How many items the review has *)
(** Hash, type, chain and account, in expert mode also timestamp, time to
    live, two lines of pricing and the number of approvals; for a stored
    contract: kind, address or name, (expert) version, entry point; then the
    arguments or their hash. *)
Definition version_lines (expert : bool) (t : SD.target) : Z :=
  match t with
  | ByHashV _ (Some v) | ByNameV _ (Some v) => if expert && negb (v =? 2 ^ 32 - 1) then 1 else 0
  | _ => 0
  end.
Definition item_count (expert : bool) (p : payload) : Z :=
  (if expert then 9 else 4)
  + match x_target p with XStored t _ => 3 + version_lines expert t | _ => 0 end
  + match x_entry p with
    | Call => 0
    | Custom _ => 1
    | Op NTransfer => if expert then len (named (x_args p)) else 2
    | Op NAddReservations => 2
    | Op NCancelReservations => 3
    | Op _ => len (named (x_args p))
    end.

(** * Tables with arbitrary contents *)
(** A table of contents: [n] in place of the number of fields, the offsets
    [offs], the total size [size]. *)
Fixpoint raw_entries (i : Z) (offs : list Z) : list Z :=
  match offs with
  | [] => []
  | o :: r => le 2 i ++ le 4 o ++ raw_entries (i + 1) r
  end.
Definition raw_head (n : Z) (offs : list Z) (size : Z) : list Z :=
  le 4 n ++ raw_entries 0 offs ++ le 4 size.

End SX.
