(** Properties C73 and C74 for TransactionV1s with arguments behind byte 255. *)
From Verif Require Import Base Zxlib Crypto Utils RuntimeArg Deploy DeployUI TxV1 TxV1UI Parser BaseFacts Spec SpecText SpecDeploy SpecTx SpecLayout SpecRaw SpecForm SpecShow SpecWrap Exec Demo Shows ReviewFacts WitDeploy TxShow TxReview FormFacts FormReview FormArgs FormAccept WitShow WitExact FormSeen App SpecApp AppFacts AppHist SpecHead HeadFacts HeadSeen HeadDeploy HeadPrice FormSign SeenSign PadAny BindFacts WitTx WitRaw WitForm WitPad.
Import S SX SF SW SH SG.

(** ** C73  The verdict depends on the hash and the payload only *)
(** False: a transfer with all its arguments before byte 256 is rejected as soon
    as seven entries more in the table at the top move them behind it. *)
Theorem C73_verdict_refuted : forall x : bool, exists pf data data' k k' u, hash32 (p_hash pf) /\ bytes data /\ bytes data' /\ zlen data' < 849 /\ begins data k u /\ begins data' k' u /\
  exact_numbers k u /\ form_payload k' u = form_payload k u /\ f_args u = ANamed (List.map raw_of [arg_id; arg_target; arg_amount]) /\ f_entry u = Op NTransfer /\
  (exists v, tx_parse pf x (1 :: data) = Ret v) /\ (exists c, tx_parse pf x (1 :: data') = Fail c).
Proof. exact pad_verdict. Qed.
Print Assumptions C73_verdict_refuted.

(** True if in both the arguments lie in the same 256 bytes and what is looked
    at lies in the hash and the payload. *)
Theorem C73_outside_seen_partial :
  forall pf x data data' k u k' u' t lines, hash32 (p_hash pf) -> bytes data -> bytes data' -> zlen data < 65472 -> zlen data' < 65472 ->
  begins data k u -> begins data' k' u' -> form_payload k u = form_payload k' u' -> f_hash u = f_hash u' -> within k u t ->
  appears k u data t -> chain_shown x (f_chain u) -> review (p_hash pf) x t = Some lines \/ bare_review (p_hash pf) x t = Some lines -> xexpert_ok x (p_time pf) (x_payload t) ->
  args_pos k' u' / 256 = args_pos k u / 256 ->
  ((exists v, tx_parse pf x (1 :: data) = Ret v) <-> (exists v, tx_parse pf x (1 :: data') = Ret v)) /\
  ((exists v, tx_parse pf x (1 :: data) = Ret v) ->
   exists lines', xreviews pf x (1 :: data) lines /\ xreviews pf x (1 :: data') lines' /\ if x then removelast lines' = removelast lines else lines' = lines).
Proof. exact outside_seen. Qed.
Print Assumptions C73_outside_seen_partial.
Example C73_case_seen : exists pf x data data' k u k' t lines, hash32 (p_hash pf) /\ bytes data /\ bytes data' /\ zlen data < 65472 /\ zlen data' < 65472 /\
  begins data k u /\ begins data' k' u /\ form_payload k u = form_payload k' u /\ n_top k <> n_top k' /\ 256 <= args_pos k u /\ within k u t /\
  appears k u data t /\ chain_shown x (f_chain u) /\ review (p_hash pf) x t = Some lines /\ xexpert_ok x (p_time pf) (x_payload t) /\
  args_pos k' u / 256 = args_pos k u / 256 /\ exists v, tx_parse pf x (1 :: data) = Ret v.
Proof. exact wrap_outside. Qed.

(** So the table matters by its number of entries at most. *)
Theorem C73_outside_count_partial :
  forall pf x data data' k u k' u' t lines, hash32 (p_hash pf) -> bytes data -> bytes data' -> zlen data < 65472 -> zlen data' < 65472 ->
  begins data k u -> begins data' k' u' -> form_payload k u = form_payload k' u' -> f_hash u = f_hash u' -> len (SL.t_offs (n_top k')) = len (SL.t_offs (n_top k)) -> within k u t ->
  appears k u data t -> chain_shown x (f_chain u) -> review (p_hash pf) x t = Some lines \/ bare_review (p_hash pf) x t = Some lines -> xexpert_ok x (p_time pf) (x_payload t) ->
  ((exists v, tx_parse pf x (1 :: data) = Ret v) <-> (exists v, tx_parse pf x (1 :: data') = Ret v)) /\
  ((exists v, tx_parse pf x (1 :: data) = Ret v) ->
   exists lines', xreviews pf x (1 :: data) lines /\ xreviews pf x (1 :: data') lines' /\ if x then removelast lines' = removelast lines else lines' = lines).
Proof. exact outside_count. Qed.
Print Assumptions C73_outside_count_partial.
Example C73_case_count : exists pf x data data' k u k' t lines, hash32 (p_hash pf) /\ bytes data /\ bytes data' /\ zlen data < 65472 /\ zlen data' < 65472 /\
  begins data k u /\ begins data' k' u /\ form_payload k u = form_payload k' u /\ n_top k <> n_top k' /\ 256 <= args_pos k u /\ within k u t /\
  appears k u data t /\ chain_shown x (f_chain u) /\ review (p_hash pf) x t = Some lines /\ xexpert_ok x (p_time pf) (x_payload t) /\
  len (SL.t_offs (n_top k')) = len (SL.t_offs (n_top k)) /\ exists v, tx_parse pf x (1 :: data) = Ret v.
Proof. exact wrap_outside_count. Qed.

(** ** C74  The same signature, the same screens *)
(** In full false: the table at the top is not signed but counted.  Seven entries
    more, and the same payload is reviewed with a hash of arguments that the
    sender of the bytes chooses. *)
Theorem C74_screen_refuted : forall (x : bool) b1 b2 b3, byte b1 -> byte b2 -> byte b3 ->
  exists d pre u s tr1 e st q tr2 v data k lines s' tr1' e' st' q' tr2' v' data' k' lines', device_ok d /\ flash_size d <= 65472 /\
  reach d s (tr1 ++ (e, st, Signed q pre) :: tr2) /\ pending st = Some (RTx (TV1 v)) /\ tx_data (bufs st) = 1 :: data /\ expert_mode st = x /\ begins data k u /\
  reach d s' (tr1' ++ (e', st', Signed q' pre) :: tr2') /\ pending st' = Some (RTx (TV1 v')) /\ tx_data (bufs st') = 1 :: data' /\ expert_mode st' = x /\ begins data' k' u /\
  exact_numbers k u /\ strict u /\ form_payload k' u = form_payload k u /\ f_args u = ARaw [1; 2; 3] /\
  FormSign.on_screen d st (RTx (TV1 v)) lines /\ In (xl "Args hash" (SD.Hex (p_hash (plat d) [1; 2; 3]))) lines /\
  FormSign.on_screen d st' (RTx (TV1 v')) lines' /\ In (xl "Args hash" (SD.Hex (p_hash (plat d) [b1; b2; b3]))) lines'.
Proof. exact pad_signed. Qed.
Print Assumptions C74_screen_refuted.

(** True if in both the arguments lie in the same 256 bytes and what is looked
    at lies in the hash and the payload. *)
Theorem C74_same_seen_partial :
  forall d s tr1 e st p pre tr2 v data k u d' s' tr1' e' st' p' tr2' v' data' k' u' t lines,
  device_ok d -> reach d s (tr1 ++ (e, st, Signed p pre) :: tr2) -> pending st = Some (RTx (TV1 v)) -> flash_size d <= 65472 -> tx_data (bufs st) = 1 :: data -> begins data k u ->
  device_ok d' -> reach d' s' (tr1' ++ (e', st', Signed p' pre) :: tr2') -> pending st' = Some (RTx (TV1 v')) -> flash_size d' <= 65472 -> tx_data (bufs st') = 1 :: data' -> begins data' k' u' ->
  plat d = plat d' -> expert_mode st = expert_mode st' ->
  within k u t -> appears k u data t -> chain_shown (expert_mode st) (f_chain u) -> review (p_hash (plat d)) (expert_mode st) t = Some lines \/ bare_review (p_hash (plat d)) (expert_mode st) t = Some lines ->
  xexpert_ok (expert_mode st) (p_time (plat d)) (x_payload t) -> args_pos k' u' / 256 = args_pos k u / 256 ->
  (form_payload k u = form_payload k' u' /\
   exists lines', FormSign.on_screen d st (RTx (TV1 v)) lines /\ FormSign.on_screen d' st' (RTx (TV1 v')) lines' /\ if expert_mode st then removelast lines' = removelast lines else lines' = lines) \/
  (form_payload k u <> form_payload k' u' /\ p_hash (plat d) (form_payload k u) = p_hash (plat d) (form_payload k' u')).
Proof. exact same_signed_seen. Qed.
Print Assumptions C74_same_seen_partial.
(** A transfer with its arguments behind byte 255, under two tables. *)
Example C74_case_seen : exists d pre s tr1 e st q tr2 v data k u s' tr1' e' st' q' tr2' v' data' k' t lines, device_ok d /\
  reach d s (tr1 ++ (e, st, Signed q pre) :: tr2) /\ pending st = Some (RTx (TV1 v)) /\ flash_size d <= 65472 /\ tx_data (bufs st) = 1 :: data /\ begins data k u /\
  reach d s' (tr1' ++ (e', st', Signed q' pre) :: tr2') /\ pending st' = Some (RTx (TV1 v')) /\ tx_data (bufs st') = 1 :: data' /\ begins data' k' u /\
  expert_mode st = expert_mode st' /\ n_top k <> n_top k' /\ 256 <= args_pos k u /\ f_entry u = Op NTransfer /\
  within k u t /\ appears k u data t /\ chain_shown (expert_mode st) (f_chain u) /\ review (p_hash (plat d)) (expert_mode st) t = Some lines /\
  xexpert_ok (expert_mode st) (p_time (plat d)) (x_payload t) /\ args_pos k' u / 256 = args_pos k u / 256.
Proof. exact wrap_two. Qed.

(** The table may say what it likes if only it has as many entries: then the
    arguments are in the same place. *)
Theorem C74_same_count_partial :
  forall d s tr1 e st p pre tr2 v data k u d' s' tr1' e' st' p' tr2' v' data' k' u' t lines,
  device_ok d -> reach d s (tr1 ++ (e, st, Signed p pre) :: tr2) -> pending st = Some (RTx (TV1 v)) -> flash_size d <= 65472 -> tx_data (bufs st) = 1 :: data -> begins data k u ->
  device_ok d' -> reach d' s' (tr1' ++ (e', st', Signed p' pre) :: tr2') -> pending st' = Some (RTx (TV1 v')) -> flash_size d' <= 65472 -> tx_data (bufs st') = 1 :: data' -> begins data' k' u' ->
  plat d = plat d' -> expert_mode st = expert_mode st' -> len (SL.t_offs (n_top k')) = len (SL.t_offs (n_top k)) ->
  within k u t -> appears k u data t -> chain_shown (expert_mode st) (f_chain u) -> review (p_hash (plat d)) (expert_mode st) t = Some lines \/ bare_review (p_hash (plat d)) (expert_mode st) t = Some lines ->
  xexpert_ok (expert_mode st) (p_time (plat d)) (x_payload t) ->
  (form_payload k u = form_payload k' u' /\
   exists lines', FormSign.on_screen d st (RTx (TV1 v)) lines /\ FormSign.on_screen d' st' (RTx (TV1 v')) lines' /\ if expert_mode st then removelast lines' = removelast lines else lines' = lines) \/
  (form_payload k u <> form_payload k' u' /\ p_hash (plat d) (form_payload k u) = p_hash (plat d) (form_payload k' u')).
Proof. exact same_signed_count. Qed.
Print Assumptions C74_same_count_partial.
(** The same transfer; the second table announces 259 entries, which is read as 3. *)
Example C74_case_count : exists d pre s tr1 e st q tr2 v data k u s' tr1' e' st' q' tr2' v' data' k' t lines, device_ok d /\
  reach d s (tr1 ++ (e, st, Signed q pre) :: tr2) /\ pending st = Some (RTx (TV1 v)) /\ flash_size d <= 65472 /\ tx_data (bufs st) = 1 :: data /\ begins data k u /\
  reach d s' (tr1' ++ (e', st', Signed q' pre) :: tr2') /\ pending st' = Some (RTx (TV1 v')) /\ tx_data (bufs st') = 1 :: data' /\ begins data' k' u /\
  expert_mode st = expert_mode st' /\ n_top k <> n_top k' /\ len (SL.t_offs (n_top k')) = len (SL.t_offs (n_top k)) /\ 256 <= args_pos k u /\ f_entry u = Op NTransfer /\
  within k u t /\ appears k u data t /\ chain_shown (expert_mode st) (f_chain u) /\ review (p_hash (plat d)) (expert_mode st) t = Some lines /\
  xexpert_ok (expert_mode st) (p_time (plat d)) (x_payload t).
Proof. exact wrap_count. Qed.

(** Not one call only: every call of a contract whose arguments stand less than 256
    bytes from the start, but no more than the entries of a full table.  Whatever
    the seven entries [w], the hash on screen is that of as many bytes from one of
    the first 42 on, in the table that is not signed. *)
Theorem C74_calls_refuted :
  forall pf x data k u t lines nm w, hash32 (p_hash pf) -> bytes data -> zlen data < 65000 -> begins data k u -> f_hash u = p_hash pf (form_payload k u) ->
  f_entry u = Custom nm -> appears k u data t -> within k u t -> chain_shown x (f_chain u) -> review (p_hash pf) x t = Some lines -> xexpert_ok x (p_time pf) (x_payload t) ->
  args_pos k u < 256 -> 260 <= args_pos k u + 6 * (10 - zlen (SL.t_offs (n_top k))) -> Forall (fun v => 0 <= v < 2 ^ 32) w -> zlen w = 7 ->
  exists data' k' u' bs0 bs p lines', begins data' k' u' /\ form_payload k' u' = form_payload k u /\ f_hash u' = f_hash u /\
    (exists o1 o2 o3, SL.t_offs (n_top k') = o1 :: o2 :: o3 :: w) /\ 0 <= p <= 41 /\ SL.here data' p bs /\ x_args (x_payload t) = Raw bs0 /\ zlen bs = zlen bs0 /\ xreviews pf x (1 :: data') lines' /\
    In (xl "Args hash" (SD.Hex (p_hash pf bs))) lines'.
Proof. exact pad_any. Qed.
Print Assumptions C74_calls_refuted.
Example C74_case_calls : forall x, exists pf data k u t lines nm, hash32 (p_hash pf) /\ bytes data /\ zlen data < 65000 /\ begins data k u /\ f_hash u = p_hash pf (form_payload k u) /\
  f_entry u = Custom nm /\ appears k u data t /\ within k u t /\ chain_shown x (f_chain u) /\ review (p_hash pf) x t = Some lines /\ xexpert_ok x (p_time pf) (x_payload t) /\
  args_pos k u < 256 /\ 260 <= args_pos k u + 6 * (10 - zlen (SL.t_offs (n_top k))) /\ exact_numbers k u /\ x_args (x_payload t) = Raw [1; 2; 3].
Proof. exact plain_padded. Qed.
(** Also an ordinary one, with named arguments, on the chain casper-test. *)
Example C74_case_named : forall x, exists pf data k u t lines nm, hash32 (p_hash pf) /\ bytes data /\ zlen data < 65000 /\ begins data k u /\ f_hash u = p_hash pf (form_payload k u) /\
  f_entry u = Custom nm /\ appears k u data t /\ within k u t /\ chain_shown x (f_chain u) /\ review (p_hash pf) x t = Some lines /\ xexpert_ok x (p_time pf) (x_payload t) /\
  args_pos k u < 256 /\ 260 <= args_pos k u + 6 * (10 - zlen (SL.t_offs (n_top k))) /\ exact_numbers k u /\ f_args u = ANamed (List.map raw_of [arg_id; arg_target; arg_amount]) /\ f_chain u = text "casper-test".
Proof. exact ord_padded. Qed.
