(** Witnesses for the properties of PropsMore. *)
From Verif Require Import Base Zxlib Crypto Utils RuntimeArg Deploy DeployUI TxV1 TxV1UI Parser BaseFacts Spec SpecText SpecDeploy SpecTx Exec TextFacts Demo BindCases WitDeploy WitBind OklFacts WitTx SpecApp App AppFacts AppHist AppClaims AppSign WitApp ExtTx SpecLayout TxAccept WitSafe.
Import S SD SX.

(** ** Expert mode *)
(** a time to live of thirty days *)
Definition d_month := seal demo_hash 1 demo_key 1700000000000 2592000000 1 [] (text "casper") demo_pay (SD.Transfer [arg_id; arg_target; arg_amount]) demo_appr.
Definition x_month := seal_v1 demo_hash (Payload alice 1700000000000 2592000000 (text "casper") classic (Named [arg_id; arg_target; arg_amount]) Native (Op NTransfer)) demo_appr.
Lemma month_refuted :
  exists pf d t, hash32 (p_hash pf) /\ good_deploy (p_hash pf) d /\ good_transaction (p_hash pf) t /\
    accepted pf false (enc_tx d) /\ accepted pf false (enc_v1 t) /\
    tx_parse pf true (enc_tx d) = Fail 13 /\ tx_parse pf true (enc_v1 t) = Fail 13.
Proof.
  exists demo, d_month, x_month. split; [exact demo_hash32|]. split; [good_by|]. split; [v1_good|].
  split; [apply taken_ok; vm_compute; reflexivity|]. split; [apply taken_ok; vm_compute; reflexivity|].
  split; vm_compute; reflexivity.
Qed.
Lemma modes_case : exists v w, parser_parse demo true (enc_tx d_transfer4) = Ret (TDeploy v) /\ parser_parse demo false (enc_tx d_transfer4) = Ret (TDeploy w) /\
  UI_runtime_items (Deploy.session v) <> UI_runtime_items (Deploy.session w).
Proof. do 2 eexists. split; [vm_compute; reflexivity|]. split; [vm_compute; reflexivity|]. vm_compute. discriminate. Qed.

(** ** Appended data *)
Definition clear_fee (pf : platform) (x : bool) (data : list Z) (t : txn) (i : Z) : bool :=
  match tx_getItem pf x 40 data t i with Ret it => match ival it with VDirect s => negb (list_eqb s (str "?")) | VPaged _ => true end | _ => true end.
Lemma clear_fees pf x data t : clear_fee pf x data t 6 && clear_fee pf x data t 7 = true ->
  forall idx it, fee_screen x idx = true -> tx_getItem pf x 40 data t idx = Ret it -> ival it <> VDirect (str "?").
Proof.
  intros H idx it F G. apply andb_true_iff in H. destruct H as [H6 H7].
  assert (C : clear_fee pf x data t idx = true).
  { unfold fee_screen in F. destruct x; [|discriminate F]. cbn [andb] in F. apply orb_prop in F. destruct F as [F|F]; apply Z.eqb_eq in F; subst idx; assumption. }
  unfold clear_fee in C. rewrite G in C. intros E. rewrite E in C. discriminate C.
Qed.
Lemma v1_more_case x n : exists v, tx_parse demo x (enc_v1 (t_native n)) = Ret (TV1 v) /\ zlen (enc_transaction (t_native n) ++ [1; 2; 3]) < 65535 /\
  (forall idx it, fee_screen x idx = true -> tx_getItem demo x 40 (enc_v1 (t_native n)) (TV1 v) idx = Ret it -> ival it <> VDirect (str "?")).
Proof.
  assert (H : exists v, tx_parse demo x (enc_v1 (t_native n)) = Ret (TV1 v) /\
    clear_fee demo x (enc_v1 (t_native n)) (TV1 v) 6 && clear_fee demo x (enc_v1 (t_native n)) (TV1 v) 7 = true).
  { destruct x, n; eexists; (split; [vm_compute; reflexivity|]); vm_compute; reflexivity. }
  destruct H as (v & T & C). exists v. split; [exact T|]. split; [|exact (clear_fees _ _ _ _ C)]. destruct n; vm_compute; reflexivity.
Qed.
Lemma deploy_more_case x : exists v, tx_parse demo x (enc_tx d_transfer) = Ret (TDeploy v) /\ dtype (Deploy.session v) <> ModuleBytes /\
  bytes (enc_deploy d_transfer) /\ zlen (enc_deploy d_transfer ++ [1; 2; 3]) < 65535.
Proof.
  destruct x; eexists; (split; [vm_compute; reflexivity|]); (split; [vm_compute; discriminate|]);
    (split; [apply bytesb_ok; vm_compute; reflexivity|]); vm_compute; reflexivity.
Qed.
Definition more_run : list event := submit 2 (casper 0) (deploy_bytes ++ [1; 2; 3]) ++ [Approve true].
Lemma more_history : exists s1 s2 a1 a2 st1 st2 p pre t1 t2,
  device_ok dev /\ reach dev s1 (a1 ++ [(Approve true, st1, Signed p pre)]) /\ pending st1 = Some (RTx t1) /\
  reach dev s2 (a2 ++ [(Approve true, st2, Signed p pre)]) /\ pending st2 = Some (RTx t2) /\
  tx_data (bufs st2) = tx_data (bufs st1) ++ [1; 2; 3].
Proof.
  assert (H1 : exists pre t, verdict (fun st _ => (pending st, tx_data (bufs st))) plain_run = Some (casper 0, pre, (Some (RTx t), deploy_bytes))
            /\ exists t', verdict (fun st _ => (pending st, tx_data (bufs st))) more_run = Some (casper 0, pre, (Some (RTx t'), deploy_bytes ++ [1; 2; 3]))).
  { do 2 eexists. split; [vm_compute; reflexivity|]. eexists. vm_compute. reflexivity. }
  destruct H1 as (pre & t & H1 & t' & H2).
  assert (F1 : Forall event_ok plain_run) by (apply events_ok_ok; vm_compute; reflexivity).
  assert (F2 : Forall event_ok more_run) by (apply events_ok_ok; vm_compute; reflexivity).
  destruct (verdict_ok _ _ _ _ _ F1 H1) as (s1 & a1 & st1 & R1 & E1).
  destruct (verdict_ok _ _ _ _ _ F2 H2) as (s2 & a2 & st2 & R2 & E2). clear H1 H2.
  assert (P1 : pending st1 = Some (RTx t)) by exact (f_equal fst E1).
  assert (D1 : tx_data (bufs st1) = deploy_bytes) by exact (f_equal snd E1).
  assert (P2 : pending st2 = Some (RTx t')) by exact (f_equal fst E2).
  assert (D2 : tx_data (bufs st2) = deploy_bytes ++ [1; 2; 3]) by exact (f_equal snd E2).
  exists s1, s2, a1, a2, st1, st2, (casper 0), pre, t, t'.
  split; [exact dev_ok|]. split; [exact R1|]. split; [exact P1|]. split; [exact R2|]. split; [exact P2|]. rewrite D1, D2. reflexivity.
Qed.

(** ** Lengths that lead backwards *)
Definition t_plain := mkx alice "casper" classic (Named []) Native (Custom (text "mint")).
Definition p_plain := enc_payload (x_payload t_plain).
(** The number of arguments is [n]; the target's section, from its key on, is
    also an argument whose value reaches beyond the transaction, and after it
    comes one whose value length leads back. *)
Definition p_loop (n : Z) := firstn 178 p_plain ++ le 4 n ++ [1; 0; 0; 0; 120; 0] ++ skipn 188 p_plain.
Definition loop_bytes (n : Z) :=
  table [demo_hash (p_loop n); p_loop n; SX.enc_approvals (x_approvals t_plain)] ++ repeat 0 86 ++ [0] ++ le 4 0 ++ le 4 (2 ^ 32 - 275).
Lemma backwards_refuted :
  exists pf data v, hash32 (p_hash pf) /\ bytes data /\ tx_parse pf true (1 :: data) = Ret (TV1 v) /\
    bytes_repr (targs v) = false /\ zlen data < num_runtime_args (targs v).
Proof.
  exists demo, (loop_bytes 1000). eexists. split; [exact demo_hash32|]. split; [apply bytesb_ok; vm_compute; reflexivity|].
  split; [vm_compute; reflexivity|]. split; vm_compute; reflexivity.
Qed.

(** ** The cursor *)
Fixpoint no_ff (l : list Z) : bool :=
  match l with a :: (b :: _) as r => negb ((a =? 255) && (b =? 255)) && no_ff r | _ => true end.
Lemma no_ff_pair : forall pre post, no_ff (pre ++ 255 :: 255 :: post) = false.
Proof.
  induction pre as [|a pre IH]; intros post; [reflexivity|]. cbn [Datatypes.app no_ff]. destruct (pre ++ 255 :: 255 :: post) eqn:E.
  - destruct pre; discriminate E.
  - rewrite <- E, IH. apply andb_false_r.
Qed.
Lemma no_ff_leap d : no_ff d = true -> SL.no_leap d.
Proof.
  intros H p w (pre & post & -> & _) W. unfold SL.word in W. destruct (Z.lt_ge_cases w (2 ^ 32 - 65536)) as [|G]; [assumption|exfalso].
  cbn [le] in H. assert (w / 256 / 256 = 65535) as E by (Z.div_mod_to_equations; lia).
  rewrite E in H. change (65535 mod 256) with 255 in H. change (65535 / 256 mod 256) with 255 in H.
  change (pre ++ [w mod 256; w / 256 mod 256; 255; 255] ++ post) with (pre ++ [w mod 256; w / 256 mod 256] ++ 255 :: 255 :: post) in H.
  rewrite app_assoc, no_ff_pair in H. discriminate H.
Qed.
Lemma forward_case n : exists data v, 1 :: data = enc_v1 (t_native n) /\ bytes data /\ zlen data < 65472 /\ SL.no_leap data /\
  parser_parse demo true (1 :: data) = Ret v.
Proof.
  exists (enc_transaction (t_native n)). destruct n; eexists; (split; [reflexivity|]); (split; [apply bytesb_ok; vm_compute; reflexivity|]);
  (split; [vm_compute; reflexivity|]); (split; [apply no_ff_leap; vm_compute; reflexivity|]); vm_compute; reflexivity.
Qed.
