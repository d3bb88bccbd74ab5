(** Specification of the bytes of a TransactionV1 in which the redundant
    numbers (counts, offsets, sizes, lengths of sections) need not be right.
    Nothing in this file refers to the model. *)
From Verif Require Export Spec SpecDeploy SpecTx SpecLayout SpecRaw.

Module SF.
Import S SX SL SR.

(** * Parts that are looser than in the format *)
(** The flag of the pricing mode Classic is a byte, arguments have types as in
    [type_bytes], a signature names its algorithm separately. *)
Inductive price := PClassic (amount gas flag : Z) | PFixed (gas factor : Z) | PPrepaid (receipt : list Z).
Inductive argument_list := ANamed (l : list raw_arg) | ARaw (bs : list Z).
Record approved := Approved { p_alg : Z; p_key : list Z; p_sigalg : Z; p_sig : list Z }.
Record form := Form {
  f_hash : list Z; f_initiator : initiator; f_time : Z; f_ttl : Z; f_chain : list Z; f_price : price;
  f_args : argument_list; f_target : xtarget; f_entry : entry; f_approvals : list approved }.

(** * Fields of the tables *)
Definition initiator_fields (a : initiator) : list (list Z) :=
  [[match a with PublicKey _ _ => 0 | AccountHash _ => 1 end]; init_bytes a].
Definition price_fields (p : price) : list (list Z) :=
  match p with
  | PClassic a g f => [[0]; le 8 a; [g]; [f]]
  | PFixed g f => [[1]; [g]; [f]]
  | PPrepaid r => [[2]; r]
  end.
Definition runtime_fields (r : runtime) : list (list Z) :=
  match r with
  | VmV1 => [[0]]
  | VmV2 v s => [[1]; le 8 v; match s with None => [0] | Some h => 1 :: h end]
  end.
Definition id_fields (t : SD.target) : list (list Z) :=
  match t with
  | SD.ByHash h => [[0]; h]
  | SD.ByName n => [[1]; lv n]
  | SD.ByHashV h v => [[2]; h; SD.enc_ver v]
  | SD.ByNameV n v => [[3]; lv n; SD.enc_ver v]
  end.
Definition entry_fields (e : entry) : list (list Z) :=
  match e with Call => [[0]] | Custom n => [[1]; lv n] | Op n => [[native_tag n]] end.
Definition argument_bytes (a : argument_list) : list Z :=
  match a with ANamed l => 0 :: le 4 (len l) ++ args_bytes l | ARaw bs => 1 :: lv bs end.
Definition approved_bytes (a : approved) : list Z := [p_alg a] ++ p_key a ++ [p_sigalg a] ++ p_sig a.
Definition approvals_bytes (l : list approved) : list Z := le 4 (len l) ++ List.concat (List.map approved_bytes l).

(** * The redundant numbers *)
Record numbers := Numbers {
  n_top : tbl; n_payload : tbl; n_initiator : tbl; n_price : tbl;
  n_args : Z;
  n_target : Z * tbl; n_id : tbl; n_runtime : tbl;
  n_entry : Z * tbl; n_sched : Z * tbl }.
Definition heading (t : tbl) : list Z := raw_head (t_n t) (t_offs t) (t_size t).
(** A table [t] followed by the fields [fs], and a section of the body. *)
Definition under (t : tbl) (fs : list (list Z)) : list Z := heading t ++ List.concat fs.
Definition section (k : Z) (n : Z) (bs : list Z) : list Z := le 2 k ++ le 4 n ++ bs.
Definition target_fields (k : numbers) (t : xtarget) : list (list Z) :=
  match t with
  | Native => [[0]]
  | XStored i r => [[1]; under (n_id k) (id_fields i); under (n_runtime k) (runtime_fields r)]
  | Session u r w => [[2]; [bool_byte u]; under (n_runtime k) (runtime_fields r); lv w]
  end.
Definition form_fields (k : numbers) (u : form) : list (list Z) :=
  [under (n_initiator k) (initiator_fields (f_initiator u)); le 8 (f_time u); le 8 (f_ttl u); lv (f_chain u);
   under (n_price k) (price_fields (f_price u));
   le 4 4 ++ section 0 (n_args k) (argument_bytes (f_args u))
   ++ section 1 (fst (n_target k)) (under (snd (n_target k)) (target_fields k (f_target u)))
   ++ section 2 (fst (n_entry k)) (under (snd (n_entry k)) (entry_fields (f_entry u)))
   ++ section 3 (fst (n_sched k)) (under (snd (n_sched k)) [[0]])].
Definition form_payload (k : numbers) (u : form) : list Z := under (n_payload k) (form_fields k u).
Definition top_fields (k : numbers) (u : form) : list (list Z) :=
  [f_hash u; form_payload k u; approvals_bytes (f_approvals u)].
Definition form_bytes (k : numbers) (u : form) : list Z := under (n_top k) (top_fields k u).

(** * What is checked *)
(** A table: one to ten entries counted modulo 256. *)
Record table_ok (t : tbl) : Prop := {
  to_n : word (t_n t); to_offs : Forall word (t_offs t); to_size : word (t_size t);
  to_num : 1 <= t_n t mod 256 <= 10; to_len : len (t_offs t) = t_n t mod 256 }.
(** Offsets of fields laid one behind the other. *)
Fixpoint offsets (o : Z) (fs : list (list Z)) : list Z :=
  match fs with [] => [] | f :: r => o :: offsets (o + len f) r end.
(** The first entries of the table are those of the fields [fs]. *)
Definition starts (t : tbl) (fs : list (list Z)) : Prop :=
  table_ok t /\ exists more, t_offs t = offsets 0 fs ++ more.
(** ... and the size is that of the fields, modulo 65536. *)
Definition covers (t : tbl) (fs : list (list Z)) : Prop :=
  starts t fs /\ t_size t mod 65536 = len (List.concat fs).
Record numbers_ok (k : numbers) (u : form) : Prop := {
  no_top : covers (n_top k) (top_fields k u);
  no_payload : covers (n_payload k) (form_fields k u);
  no_initiator : covers (n_initiator k) (initiator_fields (f_initiator u)) /\ len (t_offs (n_initiator k)) = 2;
  no_price : covers (n_price k) (price_fields (f_price u));
  no_args : word (n_args k); no_tlen : word (fst (n_target k)); no_elen : word (fst (n_entry k)); no_slen : word (fst (n_sched k));
  (** of a stored contract or a session only the first two entries *)
  no_target : match f_target u with
              | Native => covers (snd (n_target k)) (target_fields k Native)
              | t => starts (snd (n_target k)) (firstn 2 (target_fields k t))
              end;
  no_id : match f_target u with XStored _ _ => table_ok (n_id k) | _ => True end;
  no_runtime : match f_target u with Native => True | _ => table_ok (n_runtime k) end;
  no_entry : covers (snd (n_entry k)) (entry_fields (f_entry u));
  no_sched : covers (snd (n_sched k)) [[0]] }.

(** A public key may be of the algorithm 0 and then has no bytes. *)
Definition any_key (alg : Z) (key : list Z) : Prop :=
  alg = 0 /\ key = [] \/ alg = 1 /\ len key = 32 \/ alg = 2 /\ len key = 33.
Definition form_initiator (a : initiator) : Prop :=
  match a with PublicKey alg key => any_key alg key | AccountHash h => len h = 32 end.
Definition form_price (p : price) : Prop :=
  match p with
  | PClassic a g f => 0 <= a < 2 ^ 64 /\ 0 <= g < 256 /\ 0 <= f < 256
  | PFixed g f => 0 <= g < 256 /\ 0 <= f < 256
  | PPrepaid r => len r = 32
  end.
Definition form_args (a : argument_list) : Prop := match a with ANamed l => Forall readable l | ARaw _ => True end.
Definition form_id (t : SD.target) : Prop :=
  match t with
  | SD.ByHash h => len h = 32
  | SD.ByName _ => True
  | SD.ByHashV h v => len h = 32 /\ SD.good_ver v
  | SD.ByNameV _ v => SD.good_ver v
  end.
Definition form_target (t : xtarget) : Prop :=
  match t with
  | Native => True
  | XStored i r => form_id i /\ good_runtime r
  | Session _ r _ => good_runtime r
  end.
Definition form_approved (a : approved) : Prop :=
  any_key (p_alg a) (p_key a) /\ (p_sigalg a = 1 \/ p_sigalg a = 2) /\ len (p_sig a) = 64.
Record form_ok (u : form) : Prop := {
  fo_hash : len (f_hash u) = 32; fo_initiator : form_initiator (f_initiator u);
  fo_time : 0 <= f_time u < 2 ^ 64; fo_ttl : 0 <= f_ttl u < 2 ^ 64;
  fo_price : form_price (f_price u); fo_args : form_args (f_args u); fo_target : form_target (f_target u);
  fo_callable : callable (f_entry u) (f_target u) = true;
  fo_approvals : Forall form_approved (f_approvals u) }.

(** The bytes [cut] are missing at the end of the last signature. *)
Definition missing (l : list approved) (cut : list Z) : Prop :=
  cut = [] \/ exists m a s, l = m ++ [a] /\ p_sig a = s ++ cut.

(** * Transactions of the format *)
(** The redundant numbers are right. *)
Definition contents (fs : list (list Z)) : tbl := Tbl (len fs) (offsets 0 fs) (len (List.concat fs)).
Record exact_numbers (k : numbers) (u : form) : Prop := {
  en_top : n_top k = contents (top_fields k u);
  en_payload : n_payload k = contents (form_fields k u);
  en_initiator : n_initiator k = contents (initiator_fields (f_initiator u));
  en_price : n_price k = contents (price_fields (f_price u));
  en_args : n_args k = len (argument_bytes (f_args u));
  en_target : n_target k = let fs := target_fields k (f_target u) in (len (table fs), contents fs);
  en_id : match f_target u with XStored i _ => n_id k = contents (id_fields i) | _ => True end;
  en_runtime : match f_target u with XStored _ r | Session _ r _ => n_runtime k = contents (runtime_fields r) | _ => True end;
  en_entry : n_entry k = (len (table (entry_fields (f_entry u))), contents (entry_fields (f_entry u)));
  en_sched : n_sched k = (len (table [[0]]), contents [[0]]) }.
(** Those numbers, but [n] as length of the arguments. *)
Definition right_numbers (n : Z) (u : form) : numbers :=
  let o := contents [] in
  let sized fs := (len (table fs), contents fs) in
  let id := match f_target u with XStored i _ => contents (id_fields i) | _ => o end in
  let rt := match f_target u with XStored _ r | Session _ r _ => contents (runtime_fields r) | Native => o end in
  let make top pay tgt :=
    Numbers top pay (contents (initiator_fields (f_initiator u))) (contents (price_fields (f_price u)))
      n tgt id rt (sized (entry_fields (f_entry u))) (sized [[0]]) in
  let tgt := sized (target_fields (make o o (0, o)) (f_target u)) in
  let pay := contents (form_fields (make o o tgt) u) in
  make (contents (top_fields (make o pay tgt) u)) pay tgt.
(** The parts are as in the format. *)
Record strict (u : form) : Prop := {
  sf_initiator : match f_initiator u with PublicKey alg _ => alg <> 0 | _ => True end;
  sf_price : match f_price u with PClassic _ _ f => f = 0 \/ f = 1 | _ => True end;
  sf_args : match f_args u with ANamed l => Forall (fun r => ~ odd_type (r_ty r)) l | ARaw _ => True end;
  sf_approvals : Forall (fun a => p_alg a = p_sigalg a) (f_approvals u) }.
(** Transactions of which only the form is prescribed. *)
Record form_transaction (t : transaction) : Prop := {
  ft_hash : len (x_hash t) = 32;
  ft_initiator : good_initiator (x_initiator (x_payload t));
  ft_time : 0 <= x_time (x_payload t) < 2 ^ 64; ft_ttl : 0 <= x_ttl (x_payload t) < 2 ^ 64;
  ft_pricing : good_pricing (x_pricing (x_payload t));
  ft_args : Forall (fun a => supported (a_ty a) = true) (named (x_args (x_payload t)));
  ft_target : form_target (x_target (x_payload t));
  ft_callable : callable (x_entry (x_payload t)) (x_target (x_payload t)) = true;
  ft_approvals : Forall SD.good_approval (x_approvals t) }.
End SF.
