(** Witnesses for TransactionV1s whose arguments are not at the position where
    they are looked for. *)
From Verif Require Import Base Zxlib Crypto Utils RuntimeArg Deploy DeployUI TxV1 TxV1UI Parser BaseFacts Spec SpecText SpecDeploy SpecTx SpecLayout SpecRaw SpecForm SpecShow SpecWrap Exec Demo Shows ReviewFacts WitDeploy TxShow TxReview WitTx LookFacts WitLook WitRaw BindFacts FormFacts FormReview FormArgs FormAccept WitMore WitForm WitShow WitExact FormSeen App SpecApp AppFacts AppHist SpecHead HeadSeen HeadDeploy WitBind WitApp WitSign WitHead.
Import S SX SL SR SF SW SH SG.

(** ** A transfer whose chain name contains the arguments [seen] *)
Definition holding (seen : list S.arg) : list Z := let c := text "casper" ++ repeat 65 58 ++ enc_arg_list seen in c ++ repeat 65 (262 - List.length c).
Definition wrap_of (h : list Z) (seen real : list S.arg) : form :=
  Form h alice 1700000000000 1800000 (holding seen) (PClassic 2500000000 2 1) (ANamed (List.map raw_of real)) Native (Op NTransfer) [demo_approved].
Definition wrap_num (u : form) : numbers := right_numbers (len (argument_bytes (f_args u))) u.
Definition wrapped (seen real : list S.arg) : form :=
  let u := wrap_of (repeat 0 32) seen real in wrap_of (demo_hash (form_payload (wrap_num u) u)) seen real.
Definition wrap_data (u : form) : list Z := form_bytes (wrap_num u) u.
(** What appears of it. *)
Definition wrap_seen (seen real : list S.arg) : transaction :=
  let u := wrapped seen real in
  Transaction (f_hash u) (Payload alice 1700000000000 1800000 (text "casper") (Classic 2500000000 2 true) (Named seen) Native (Op NTransfer)) [SD.Approval 1 [] []].
Definition wrap_pairs : list (list S.arg * list S.arg) :=
  [([arg_id; arg_target; arg_amount], [arg_id; arg_thief; arg_amount]); ([arg_note 65; arg_note 66; arg_note 67], [arg_id; arg_target; arg_amount])].
Lemma wrap_ok seen real h : len h = 32 -> In (seen, real) wrap_pairs -> form_ok (wrap_of h seen real).
Proof.
  intros Hh I. constructor; cbn [wrap_of f_hash f_initiator f_time f_ttl f_price f_args f_target f_entry f_approvals]; try lia; auto.
  - right. left. split; reflexivity.
  - cbn. lia.
  - cbn [form_args]. cbn [wrap_pairs In] in I. destruct I as [I|[I|[]]]; injection I as <- <-; cbn [List.map]; repeat (apply Forall_cons; [readably|]); apply Forall_nil.
  - exact Logic.I.
  - constructor; [|constructor]. split; [right; left; split; reflexivity|]. split; [left; reflexivity|reflexivity].
Qed.
Lemma wrap_payload h h' seen real : form_payload (wrap_num (wrap_of h seen real)) (wrap_of h seen real) = form_payload (wrap_num (wrap_of h' seen real)) (wrap_of h' seen real).
Proof. reflexivity. Qed.
Lemma wrap_hash seen real : f_hash (wrapped seen real) = p_hash demo (form_payload (wrap_num (wrapped seen real)) (wrapped seen real)).
Proof. change (p_hash demo) with demo_hash. unfold wrapped at 1. cbv zeta. cbn [wrap_of f_hash]. apply (f_equal demo_hash). unfold wrapped. cbv zeta. apply wrap_payload. Qed.
Lemma wrap_facts seen real : In (seen, real) wrap_pairs ->
  let u := wrapped seen real in let k := wrap_num u in
  bytes (wrap_data u) /\ zlen (wrap_data u) < 65472 /\ begins (wrap_data u) k u /\ exact_numbers k u /\ f_entry u = Op NTransfer /\ f_args u = ANamed (List.map raw_of real) /\
  args_pos k u = 496 /\ f_hash u = p_hash demo (form_payload k u) /\ appears k u (wrap_data u) (wrap_seen seen real) /\ chain_shown false (f_chain u).
Proof.
  intros I u k.
  assert (F : form_ok u) by (apply wrap_ok; [apply (proj1 (demo_hash32 _))|exact I]).
  assert (N : numbers_ok k u) by (apply (right_ok (len (argument_bytes (f_args u))) u); cbn [wrap_pairs In] in I; destruct I as [I|[I|[]]]; injection I as <- <-; vm_compute; try split; congruence).
  split; [apply bytesb_ok; cbn [wrap_pairs In] in I; destruct I as [I|[I|[]]]; injection I as <- <-; vm_compute; reflexivity|].
  split; [cbn [wrap_pairs In] in I; destruct I as [I|[I|[]]]; injection I as <- <-; vm_compute; reflexivity|].
  split; [unfold wrap_data; rewrite <- (app_nil_r (form_bytes _ _)); exact (begins_of k u [] F N)|].
  split; [exact (right_exact u)|]. split; [reflexivity|]. split; [reflexivity|].
  split; [cbn [wrap_pairs In] in I; destruct I as [I|[I|[]]]; injection I as <- <-; vm_compute; reflexivity|].
  split; [apply wrap_hash|]. split.
  - constructor.
    + reflexivity.
    + reflexivity.
    + reflexivity.
    + reflexivity.
    + cbn [wrap_pairs In] in I; destruct I as [I|[I|[]]]; injection I as <- <-; vm_compute; reflexivity.
    + split; reflexivity.
    + reflexivity.
    + reflexivity.
    + change (f_entry u) with (Op NTransfer). exists seen. split; [reflexivity|].
      split; [apply (forallb_Forall arg_b); [intros a Ha; unfold arg_b in Ha; bools; split; [assumption|apply name_b_ok; assumption]|]|split].
      * cbn [wrap_pairs In] in I; destruct I as [I|[I|[]]]; injection I as <- <-; vm_compute; reflexivity.
      * cbn [wrap_pairs In] in I; destruct I as [I|[I|[]]]; injection I as <- <-; reflexivity.
      * exists (firstn 240 (wrap_data u)), (skipn (240 + List.length (enc_arg_list seen)) (wrap_data u)).
        cbn [wrap_pairs In] in I; destruct I as [I|[I|[]]]; injection I as <- <-; split; vm_compute; reflexivity.
    + reflexivity.
  - cbn [wrap_pairs In] in I; destruct I as [I|[I|[]]]; injection I as <- <-; (split; [left; vm_compute; reflexivity|discriminate]).
Qed.

(** ** A call whose arguments begin behind byte 255 *)
Definition far_of (h : list Z) : form :=
  Form h bob 1700000000000 1800000 (text "casper-testnet-1") (PPrepaid (repeat 7 32)) (ARaw [1; 2; 3]) (XStored (SD.ByName (text "counter")) VmV1) (Custom (text "mint")) [demo_approved].
Definition far_num (u : form) : numbers := right_numbers 8 u.
Definition far_call : form := far_of (demo_hash (form_payload (far_num (far_of (repeat 0 32))) (far_of (repeat 0 32)))).
Definition far_data : list Z := form_bytes (far_num far_call) far_call.
Definition far_seen (bs : list Z) : transaction :=
  Transaction (f_hash far_call) (Payload bob 1700000000000 1800000 (text "casper-testnet-1") (Prepaid (repeat 7 32)) (Raw bs) (XStored (SD.ByName (text "counter")) VmV1) (Custom (text "mint")))
    [SD.Approval 1 [] []].
Lemma far_call_ok : form_ok far_call.
Proof.
  constructor; cbn [far_call far_of f_hash f_initiator f_time f_ttl f_price f_args f_target f_entry f_approvals]; try lia.
  - apply (proj1 (demo_hash32 _)).
  - right. right. split; reflexivity.
  - reflexivity.
  - exact Logic.I.
  - split; exact Logic.I.
  - reflexivity.
  - constructor; [|constructor]. split; [right; left; split; reflexivity|]. split; [left; reflexivity|reflexivity].
Qed.
Lemma far_payload h h' : form_payload (far_num (far_of h)) (far_of h) = form_payload (far_num (far_of h')) (far_of h').
Proof. reflexivity. Qed.
Lemma far_hash : f_hash far_call = p_hash demo (form_payload (far_num far_call) far_call).
Proof. change (p_hash demo) with demo_hash. unfold far_call at 1. cbn [far_of f_hash]. apply (f_equal demo_hash). unfold far_call. apply far_payload. Qed.
Lemma far_facts : let u := far_call in let k := far_num u in
  bytes far_data /\ zlen far_data < 65472 /\ begins far_data k u /\ exact_numbers k u /\ args_pos k u = 261 /\ f_hash u = p_hash demo (form_payload k u) /\
  appears k u far_data (far_seen [0; 0; 0]) /\ depicts k u far_data (far_seen [1; 2; 3]) /\ (forall x, chain_shown x (f_chain u)).
Proof.
  intros u k.
  assert (N : numbers_ok k u) by (apply (right_ok 8 u); vm_compute; try split; congruence).
  split; [apply bytesb_ok; vm_compute; reflexivity|]. split; [vm_compute; reflexivity|].
  split; [unfold far_data; rewrite <- (app_nil_r (form_bytes _ _)); exact (begins_of k u [] far_call_ok N)|].
  split; [exact (right_exact u)|]. split; [vm_compute; reflexivity|]. split; [exact far_hash|].
  assert (P : seen_pos k u = 5) by (vm_compute; reflexivity).
  split; [|split].
  - constructor; try reflexivity.
    change (f_entry u) with (Custom (text "mint")). exists [0; 0; 0]. split; [reflexivity|]. unfold seen_bytes. rewrite P. change (f_args u) with (ARaw [1; 2; 3]). split; [|reflexivity].
    exists (firstn 5 far_data), (skipn 8 far_data). split; vm_compute; reflexivity.
  - constructor; try reflexivity. exists [1; 2; 3]. split; reflexivity.
  - intros x. split; [left; vm_compute; reflexivity|intros _; vm_compute; reflexivity].
Qed.

(** ** Cases *)
Lemma wrap_case : exists data k u t lines, bytes data /\ zlen data < 65472 /\ begins data k u /\ exact_numbers k u /\ f_entry u = Op NTransfer /\ 256 <= args_pos k u /\
  f_hash u = p_hash demo (form_payload k u) /\ appears k u data t /\ acceptable (x_payload t) = true /\ chain_shown false (f_chain u) /\
  review (p_hash demo) false t = Some lines /\ xexpert_ok false (p_time demo) (x_payload t).
Proof.
  destruct (wrap_facts [arg_id; arg_target; arg_amount] [arg_id; arg_thief; arg_amount]) as (B & L & Bg & EN & En & _ & P & Hh & Ap & Ch); [left; reflexivity|].
  assert (R : exists lines, review (p_hash demo) false (wrap_seen [arg_id; arg_target; arg_amount] [arg_id; arg_thief; arg_amount]) = Some lines) by (apply is_some_ok; vm_compute; reflexivity).
  destruct R as (lines & R). do 4 eexists. exists lines. split; [exact B|]. split; [exact L|]. split; [exact Bg|]. split; [exact EN|]. split; [exact En|]. split; [rewrite P; lia|].
  split; [exact Hh|]. split; [exact Ap|]. split; [vm_compute; reflexivity|]. split; [exact Ch|]. split; [exact R|]. intros E. discriminate E.
Qed.
Lemma wrap_missing : exists data k u t l, bytes data /\ zlen data < 65472 /\ begins data k u /\ exact_numbers k u /\ f_entry u = Op NTransfer /\ f_args u = ANamed (List.map raw_of l) /\
  complete (Op NTransfer) (Named l) = true /\ f_hash u = p_hash demo (form_payload k u) /\ appears k u data t /\ acceptable (x_payload t) = false.
Proof.
  destruct (wrap_facts [arg_note 65; arg_note 66; arg_note 67] [arg_id; arg_target; arg_amount]) as (B & L & Bg & EN & En & Ea & P & Hh & Ap & Ch); [right; left; reflexivity|].
  do 4 eexists. exists [arg_id; arg_target; arg_amount]. split; [exact B|]. split; [exact L|]. split; [exact Bg|]. split; [exact EN|]. split; [exact En|]. split; [exact Ea|].
  split; [vm_compute; reflexivity|]. split; [exact Hh|]. split; [exact Ap|]. vm_compute; reflexivity.
Qed.
Lemma far_case x : exists data v k u t lines, bytes data /\ zlen data < 65472 /\ no_leap data /\ tx_parse demo x (1 :: data) = Ret (TV1 v) /\ begins data k u /\ exact_numbers k u /\
  (forall n, f_entry u <> Op n) /\ (forall name, f_entry u = Custom name -> version_known x (f_target u)) /\ 256 <= args_pos k u /\ f_hash u = p_hash demo (form_payload k u) /\
  appears k u data t /\ acceptable (x_payload t) = true /\ chain_shown x (f_chain u) /\ review (p_hash demo) x t = Some lines /\ xexpert_ok x (p_time demo) (x_payload t).
Proof.
  destruct far_facts as (B & L & Bg & EN & P & Hh & Ap & _ & Ch).
  assert (R : exists lines, review (p_hash demo) x (far_seen [0; 0; 0]) = Some lines) by (apply is_some_ok; destruct x; vm_compute; reflexivity).
  destruct R as (lines & R). assert (X : xexpert_ok x (p_time demo) (x_payload (far_seen [0; 0; 0]))) by (apply v1_expert; reflexivity).
  assert (AC : acceptable (x_payload (far_seen [0; 0; 0])) = true) by reflexivity.
  destruct (seen_yes demo x far_data (far_num far_call) far_call (far_seen [0; 0; 0]) demo_hash32 B L Bg Ap lines Hh AC (Ch x) (or_introl R) X) as (v & Tv & _).
  destruct v as [dd|v].
  { destruct (accept_inv demo x 1 far_data _ ltac:(lia) Tv) as (_ & o1 & o2 & its & o3 & q & C & _). apply content_deploy in C. destruct C as [C _]. discriminate C. }
  exists far_data, v, (far_num far_call), far_call, (far_seen [0; 0; 0]), lines. split; [exact B|]. split; [exact L|]. split; [apply no_ff_leap; vm_compute; reflexivity|]. split; [exact Tv|].
  split; [exact Bg|]. split; [exact EN|]. split; [intros n E; discriminate E|]. split; [intros name _ _; exact Logic.I|]. split; [rewrite P; lia|]. split; [exact Hh|].
  split; [exact Ap|]. split; [exact AC|]. split; [exact (Ch x)|]. split; [exact R|exact X].
Qed.
Lemma far_refuted : exists pf data k u t, hash32 (p_hash pf) /\ bytes data /\ zlen data < 65472 /\ begins data k u /\ exact_numbers k u /\ strict u /\ f_hash u = p_hash pf (form_payload k u) /\
  depicts k u data t /\ presentable t /\ forall x, xexpert_ok x (p_time pf) (x_payload t) /\ exists lines lines', review (p_hash pf) x t = Some lines /\ xreviews pf x (1 :: data) lines' /\
    exists h h', In (xl "Args hash" (SD.Hex h)) lines /\ In (xl "Args hash" (SD.Hex h')) lines' /\ h <> h'.
Proof.
  destruct far_facts as (B & L & Bg & EN & P & Hh & Ap & De & Ch).
  exists demo, far_data, (far_num far_call), far_call, (far_seen [1; 2; 3]). split; [exact demo_hash32|]. split; [exact B|]. split; [exact L|]. split; [exact Bg|]. split; [exact EN|].
  split; [constructor; cbn; try lia; auto|]. split; [exact Hh|]. split; [exact De|].
  split; [constructor; cbn [far_seen x_payload x_chain x_entry x_target x_args x_approvals good_entry good_id good_xargs]; try (split; [vm_compute; congruence|intros K; vm_compute in K; intuition discriminate]); [constructor|reflexivity]|].
  intros x. split; [apply v1_expert; reflexivity|].
  assert (R : forall bs, exists lines, review (p_hash demo) x (far_seen bs) = Some lines /\ In (xl "Args hash" (SD.Hex (demo_hash bs))) lines).
  { intros bs. change (p_hash demo) with demo_hash. unfold far_seen. generalize demo_hash (f_hash far_call). intros H hh. destruct x; eexists; (split; [reflexivity|]); cbn [app In]; repeat (first [left; reflexivity|right]). }
  destruct (R [1; 2; 3]) as (lines & R1 & I1). destruct (R [0; 0; 0]) as (lines' & R2 & I2). exists lines, lines'. split; [exact R1|]. split.
  - apply (seen_yes demo x far_data (far_num far_call) far_call (far_seen [0; 0; 0]) demo_hash32 B L Bg Ap lines' Hh eq_refl (Ch x) (or_introl R2)). apply v1_expert; reflexivity.
  - exists (demo_hash [1; 2; 3]), (demo_hash [0; 0; 0]). split; [exact I1|]. split; [exact I2|]. vm_compute. discriminate.
Qed.

(** ** Signed *)
Lemma far_signed (x : bool) : exists d s tr1 e st q pre tr2 v data k u t lines, device_ok d /\ reach d s (tr1 ++ (e, st, Signed q pre) :: tr2) /\ pending st = Some (RTx (TV1 v)) /\
  flash_size d <= 65472 /\ expert_mode st = x /\ tx_data (bufs st) = 1 :: data /\ begins data k u /\ few_args u /\ 256 <= args_pos k u /\ appears k u data t /\ chain_shown (expert_mode st) (f_chain u) /\
  review (p_hash (plat d)) (expert_mode st) t = Some lines /\ xexpert_ok (expert_mode st) (p_time (plat d)) (x_payload t).
Proof.
  destruct far_facts as (B & L & Bg & EN & P & Hh & Ap & _ & Ch).
  assert (R : exists lines, review (p_hash demo) x (far_seen [0; 0; 0]) = Some lines) by (apply is_some_ok; destruct x; vm_compute; reflexivity).
  destruct R as (lines & R). assert (X : xexpert_ok x (p_time demo) (x_payload (far_seen [0; 0; 0]))) by (apply v1_expert; reflexivity).
  assert (AC : acceptable (x_payload (far_seen [0; 0; 0])) = true) by reflexivity.
  destruct (seen_yes demo x far_data (far_num far_call) far_call (far_seen [0; 0; 0]) demo_hash32 B L Bg Ap lines Hh AC (Ch x) (or_introl R) X) as (v & Tv & _).
  destruct v as [dd|v].
  { destruct (accept_inv demo x 1 far_data _ ltac:(lia) Tv) as (_ & o1 & o2 & its & o3 & q & C & _). apply content_deploy in C. destruct C as [C _]. discriminate C. }
  destruct (signing_history x (1 :: far_data) _ ltac:(apply Forall_cons; [unfold byte; lia|exact B]) ltac:(vm_compute; reflexivity) Tv) as (s & tr1 & st & h & Re & Pe & Ed & Ex).
  exists roomy_dev, s, tr1, (Approve true), st, (casper 0), h, [], v, far_data, (far_num far_call), far_call, (far_seen [0; 0; 0]), lines.
  split; [exact roomy_ok|]. split; [exact Re|]. split; [exact Pe|]. split; [cbn; lia|]. split; [exact Ex|]. split; [exact Ed|]. split; [exact Bg|]. split; [exact Logic.I|]. split; [rewrite P; lia|].
  split; [exact Ap|]. rewrite Ex. split; [exact (Ch x)|]. split; [exact R|exact X].
Qed.
(** The transfer with the chain name of 262 bytes. *)
Lemma wrap_heading : exists data v k u, bytes data /\ zlen data < 65472 /\ begins data k u /\ tx_parse demo false (1 :: data) = Ret (TV1 v) /\ few_args u /\ S.len (f_chain u) = 262.
Proof.
  destruct (wrap_facts [arg_id; arg_target; arg_amount] [arg_id; arg_thief; arg_amount]) as (B & L & Bg & EN & En & _ & P & Hh & Ap & Ch); [left; reflexivity|].
  set (t := wrap_seen [arg_id; arg_target; arg_amount] [arg_id; arg_thief; arg_amount]) in *. set (u := wrapped [arg_id; arg_target; arg_amount] [arg_id; arg_thief; arg_amount]) in *.
  assert (R : exists lines, review (p_hash demo) false t = Some lines) by (apply is_some_ok; vm_compute; reflexivity).
  destruct R as (lines & R). assert (AC : acceptable (x_payload t) = true) by (vm_compute; reflexivity).
  destruct (seen_yes demo false (wrap_data u) (wrap_num u) u t demo_hash32 B L Bg Ap lines Hh AC Ch (or_introl R) ltac:(intros E; discriminate E)) as (v & Tv & _).
  destruct v as [dd|v].
  { destruct (accept_inv demo false 1 (wrap_data u) _ ltac:(lia) Tv) as (_ & o1 & o2 & its & o3 & q & C & _). apply content_deploy in C. destruct C as [C _]. discriminate C. }
  exists (wrap_data u), v, (wrap_num u), u. split; [exact B|]. split; [exact L|]. split; [exact Bg|]. split; [exact Tv|]. split; [vm_compute; reflexivity|vm_compute; reflexivity].
Qed.

(** ** A deploy whose chain name has a NUL in it *)
Definition nul_chain : list Z := text "casper" ++ 0 :: text "-test".
Definition nul_fee : list Z := [4; 0; 225; 245; 5].
Definition nul_header : SD.header := SD.Header 1 demo_key 1700000000000 1800000 1 (demo_hash (enc_fee [] nul_fee ++ vast_sess)) [] nul_chain.
Definition nul_rest : list Z := vast_sess ++ le 4 0.
Definition nul_tx : list Z := SD.enc_header nul_header ++ demo_hash (SD.enc_header nul_header) ++ enc_fee [] nul_fee ++ nul_rest.
Lemma nul_ok x : raw_ok x nul_tx = true.
Proof. destruct x; vm_compute; reflexivity. Qed.
Lemma nul_form : form_header nul_header.
Proof.
  constructor; cbn [nul_header SD.h_alg SD.h_key SD.h_time SD.h_ttl SD.h_gas SD.h_bodyhash SD.h_deps SD.h_chain]; try lia; [reflexivity|apply (proj1 (demo_hash32 _))|constructor].
Qed.
Lemma nul_signed (x : bool) : exists d s tr1 e st q pre tr2 v data h dh w y more,
  device_ok d /\ reach d s (tr1 ++ (e, st, Signed q pre) :: tr2) /\ pending st = Some (RTx (TDeploy v)) /\
  tx_data (bufs st) = 0 :: data /\ data = SD.enc_header h ++ dh ++ enc_fee w y ++ more /\ zlen dh = 32 /\ form_header h /\
  expert_mode st = x /\ SD.h_chain h = text "casper" ++ 0 :: text "-test" /\
  forall kl, exists it, review_item d st (RTx (TDeploy v)) kl 2 = Ret it /\ shows (p_hash (plat d)) (p_time (plat d)) (SD.ln "Chain ID" (SD.Text (text "casper"))) it.
Proof.
  destruct (raw_ok_ok _ _ (nul_ok x)) as (B & L & v & T).
  destruct (signing_history x (0 :: nul_tx) _ ltac:(apply bytesb_ok; vm_compute; reflexivity) ltac:(vm_compute; reflexivity) T) as (s & tr1 & st & h & R & P & Ed & Ex).
  exists roomy_dev, s, tr1, (Approve true), st, (casper 0), h, [], v, nul_tx, nul_header, (demo_hash (SD.enc_header nul_header)), [], nul_fee, nul_rest.
  split; [exact roomy_ok|]. split; [exact R|]. split; [exact P|]. split; [exact Ed|].
  split; [reflexivity|]. split; [apply demo_hash32|]. split; [exact nul_form|]. split; [exact Ex|]. split; [reflexivity|]. intros kl.
  destruct (signed_deploy_any _ _ _ _ _ _ _ _ _ roomy_ok R P) as (data & Ed' & H). rewrite Ed in Ed'. injection Ed' as <-.
  destruct (H nul_header (demo_hash (SD.enc_header nul_header)) [] nul_fee nul_rest eq_refl (proj1 (demo_hash32 _)) nul_form) as (_ & _ & K).
  refine (proj2 (K 2 _ kl _)). right. left. reflexivity.
Qed.

Lemma price_case : exists data v k u, bytes data /\ zlen data < 65472 /\ begins data k u /\ tx_parse demo true (1 :: data) = Ret (TV1 v) /\ few_args u /\ S.len (f_chain u) < 256 /\ exists a g s, f_price u = PClassic a g s.
Proof.
  exists vague_data. destruct (vague_accepted true) as (v' & T). exists v', vague_numbers, vague.
  split; [apply bytesb_ok; vm_compute; reflexivity|]. split; [vm_compute; reflexivity|]. split; [exact vague_begins|]. split; [exact T|]. split; [exact Logic.I|]. split; [vm_compute; reflexivity|]. eexists _, _, _. reflexivity.
Qed.
