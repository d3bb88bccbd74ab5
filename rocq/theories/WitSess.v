(** Concrete cases for the properties of whole sessions. *)
From Verif Require Import Base Zxlib Crypto Utils RuntimeArg Deploy DeployUI TxV1 TxV1UI Parser BaseFacts Spec SpecText SpecDeploy SpecTx SpecApp SpecSess Exec ArgsFacts ReaderFacts TextFacts Shows DeployArgs SessionFacts ReviewFacts Demo DeployCases WitDeploy TxFacts TxBody TxShow TxReview TxClaims BindCases WitBind WitTx WitSafe SpecApp App AppFacts AppHist AppClaims AppSign WitApp TxAccept Screen WasmSafe SessFacts SessTx SessWasm SessReply.
Import S SD SX.

(** * C54 *)
(** a native delegation with 130 more arguments *)
Definition t_many : transaction :=
  mkx alice "casper" classic (Named (native_args NDelegate ++ repeat (Arg [97] [] (Prim 0)) 130)) Native (Op NDelegate).
Definition screens (x : bool) (data : list Z) : option (Z * bool) :=
  match tx_parse demo x data with
  | Ret t => Some (getNumItems x t, match screen_item demo x 40 data t 127 with ZItem _ => true | _ => false end)
  | _ => None
  end.
Lemma screen_refuted :
  exists pf t v i it, hash32 (p_hash pf) /\ good_transaction (p_hash pf) t /\ tx_parse pf false (enc_v1 t) = Ret (TV1 v) /\
    0 <= i < getNumItems false (TV1 v) /\ tx_getItem pf false 40 (enc_v1 t) (TV1 v) i = Ret it /\
    screen_item pf false 40 (enc_v1 t) (TV1 v) i = ZNoData.
Proof.
  assert (X : exists v, tx_parse demo false (enc_v1 t_many) = Ret (TV1 v) /\ 130 < getNumItems false (TV1 v)).
  { assert (Y : match tx_parse demo false (enc_v1 t_many) with Ret (TV1 v) => 130 <? getNumItems false (TV1 v) | _ => false end = true)
      by (vm_compute; reflexivity).
    destruct (tx_parse demo false (enc_v1 t_many)) as [[v|v]| |]; try discriminate Y. exists v. split; [reflexivity|lia]. }
  destruct X as (v & P & N). 
  assert (L : zlen (enc_transaction t_many) < 65535) by (vm_compute; reflexivity).
  destruct (v1_shown_all demo false 40 _ v L P) as [_ V]. destruct (proj1 (V 129) ltac:(lia)) as (it & G).
  exists demo, t_many, v, 129, it. split; [exact demo_hash32|]. split; [v1_good|]. split; [exact P|]. split; [lia|].
  split; [exact G|]. apply screen_big. lia.
Qed.

(** * C55 *)
Lemma wasm_auction_refuted :
  exists pf d, hash32 (p_hash pf) /\ good_deploy (p_hash pf) d /\ zlen (enc_deploy d) < 65536 /\
    forall x, parser_parse_wasm pf x true (enc_deploy d) = Undef OobRead.
Proof.
  exists demo, (d_auction (2 ^ 32 - 1)). split; [exact demo_hash32|]. split; [good_by|]. split; [vm_compute; reflexivity|].
  intros x. apply undef_ok. destruct x; vm_compute; reflexivity.
Qed.
(** a header said to be 65505 bytes long, and a module whose code is missing *)
Definition short_code := [1] ++ enc_payment (Payment [] [1]) ++ [0] ++ le 4 5000.
Definition short_wasm := short_code ++ repeat 0 (89 - List.length short_code) ++ le 4 0 ++ le 4 65408 ++ repeat 0 40.
Lemma wasm_header_refuted :
  exists pf data, hash32 (p_hash pf) /\ bytes data /\ zlen data = 137 /\
    forall x, exists h, parser_parse_wasm pf x true data = Ret h /\ header_length_deploy h = 65505 /\
      fst (parser_validate_wasm h (ctx_of pf x true 40 data (zlen data)) 0) = Undef OobRead.
Proof.
  exists demo, short_wasm. split; [exact demo_hash32|]. split; [apply bytesb_ok; vm_compute; reflexivity|]. split; [vm_compute; reflexivity|].
  intros x. destruct x; eexists; (split; [vm_compute; reflexivity|]); (split; [reflexivity|]); apply undef_ok; vm_compute; reflexivity.
Qed.
Lemma wasm_items_case : exists h, bytes wasm_bytes /\ zlen wasm_bytes < 65536 /\ parser_parse_wasm demo true true wasm_bytes = Ret h /\
  header_length_deploy h < 65504.
Proof.
  eexists. split; [apply bytesb_ok; vm_compute; reflexivity|]. split; [vm_compute; reflexivity|]. split; [vm_compute; reflexivity|]. vm_compute. reflexivity.
Qed.

(** * C56 *)
Definition way : list Z := WitApp.words5 (casper 0).
Lemma way_ok : 20 <= zlen way /\ SS.words5 way = casper 0 /\ SA.casper_path (SS.words5 way).
Proof. split; [vm_compute; discriminate|]. split; [vm_compute; reflexivity|]. split; vm_compute; reflexivity. Qed.
(** idle after a signed message *)
Lemma idle_after es : Forall event_ok es -> ended (fun s tr => (pending s, expert_mode s)) es = Some (None, false) ->
  exists s tr, reach dev s tr /\ pending s = None /\ expert_mode s = false.
Proof. intros F H. destruct (ended_ok _ _ _ F H) as (s & tr & R & E). injection E as E1 E2. eauto. Qed.

Lemma deploy_session_case :
  exists d s tr p cs c dp lines, device_ok d /\ reach d s tr /\ tr <> [] /\ pending s = None /\ 20 <= zlen p /\ SA.casper_path (SS.words5 p) /\
    good_deploy (p_hash (plat d)) dp /\ expert_ok (expert_mode s) (p_time (plat d)) (d_header dp) /\
    SD.review (p_hash (plat d)) (expert_mode s) dp = Some lines /\ List.concat cs ++ c = enc_tx dp /\ zlen (enc_tx dp) <= flash_size d.
Proof.
  assert (F : Forall event_ok message_run) by (apply events_ok_ok; vm_compute; reflexivity).
  assert (H : ended (fun s tr => (pending s, expert_mode s, match tr with [] => false | _ => true end)) message_run = Some (None, false, true)) by (vm_compute; reflexivity).
  destruct (ended_ok _ _ _ F H) as (s & tr & R & E). injection E as E1 E2 E3. clear H.
  destruct (is_some_ok (SD.review (p_hash demo) false d_transfer)) as (lines & Rv); [vm_compute; reflexivity|].
  exists dev, s, tr, way, (firstn 2 (pieces 200 (enc_tx d_transfer))), (skipn 400 (enc_tx d_transfer)), d_transfer, lines.
  destruct way_ok as (W1 & _ & W2). rewrite E2.
  split; [exact dev_ok|]. split; [exact R|]. split; [destruct tr; [discriminate E3|discriminate]|]. split; [exact E1|]. split; [exact W1|].
  split; [exact W2|]. split; [exact d_transfer_good|]. split; [intros X; discriminate X|]. split; [exact Rv|]. split; [vm_compute; reflexivity | vm_compute; discriminate].
Qed.
Lemma v1_session_case :
  exists d s tr p cs c t lines, device_ok d /\ reach d s tr /\ pending s = None /\ 20 <= zlen p /\ SA.casper_path (SS.words5 p) /\
    good_transaction (p_hash (plat d)) t /\ xexpert_ok (expert_mode s) (p_time (plat d)) (x_payload t) /\
    SX.review (p_hash (plat d)) (expert_mode s) t = Some lines /\ before_args t < 256 /\ lines <> [] /\
    List.concat cs ++ c = enc_v1 t /\ zlen (enc_v1 t) <= flash_size d.
Proof.
  destruct (is_some_ok (SX.review (p_hash demo) false (t_native NTransfer))) as (lines & Rv); [vm_compute; reflexivity|].
  exists dev, (boot dev), [], way, (firstn 2 (pieces 200 (enc_v1 (t_native NTransfer)))), (skipn 400 (enc_v1 (t_native NTransfer))), (t_native NTransfer), lines.
  destruct way_ok as (W1 & _ & W2).
  split; [exact dev_ok|]. split; [apply reach_boot|]. split; [reflexivity|]. split; [exact W1|].
  split; [exact W2|]. split; [v1_good|]. split; [apply v1_expert; reflexivity|]. split; [exact Rv|]. split; [vm_compute; reflexivity|].
  split; [intros ->; vm_compute in Rv; discriminate|]. split; [vm_compute; reflexivity | vm_compute; discriminate].
Qed.

(** * C57 *)
(** the signature at the end of the events [es], from the state [s] *)
Definition signature (d : device) (s : app) (es : list event) : option (list Z * list Z) :=
  match run d s (es ++ [Approve true]) with
  | Ret (_, tr) => match rev tr with (Approve true, _, Signed p m) :: _ => Some (p, m) | _ => None end
  | _ => None
  end.
Definition depends (i : Z) : Prop :=
  exists d s1 tr1 s2 tr2 p cs c path m1 m2, device_ok d /\ reach d s1 tr1 /\ reach d s2 tr2 /\ pending s1 = None /\ pending s2 = None /\
    expert_mode s1 = expert_mode s2 /\ 20 <= zlen p /\ SA.casper_path (SS.words5 p) /\
    signature d s1 (sends i p cs c) = Some (path, m1) /\ signature d s2 (sends i p cs c) = Some (path, m2) /\ m1 <> m2.
Lemma depends_by i cs c m1 m2 :
  signature dev (boot dev) (sends i way cs c) = Some (casper 0, m1) ->
  ended (fun s _ => (pending s, expert_mode s, signature dev s (sends i way cs c))) (submit 2 (casper 0) v1_wrong) = Some (None, false, Some (casper 0, m2)) ->
  m1 <> m2 -> depends i.
Proof.
  intros H1 H2 N. assert (F : Forall event_ok (submit 2 (casper 0) v1_wrong)) by (apply events_ok_ok; vm_compute; reflexivity).
  destruct (ended_ok _ _ _ F H2) as (s & tr & R & E). injection E as E1 E2 E3. destruct way_ok as (W1 & _ & W2).
  exists dev, (boot dev), [], s, tr, way, cs, c, (casper 0), m1, m2. split; [exact dev_ok|]. split; [apply reach_boot|]. split; [exact R|].
  split; [reflexivity|]. split; [exact E1|]. split; [rewrite E2; reflexivity|]. split; [exact W1|]. split; [exact W2|].
  split; [exact H1|]. split; [exact E3 | exact N].
Qed.
Lemma message_depends : depends 3.
Proof.
  eapply (depends_by 3 [] (prefix ++ repeat 46 11 ++ repeat 1 32)); [vm_compute; reflexivity | vm_compute; reflexivity | discriminate].
Qed.
Lemma wasm_depends : depends 4.
Proof.
  eapply (depends_by 4 (firstn 4 (pieces 200 wasm_bytes)) (skipn 800 wasm_bytes)); [vm_compute; reflexivity | vm_compute; reflexivity | discriminate].
Qed.
Lemma alike_case : exists s1 tr1 s2 tr2, reach dev s1 tr1 /\ reach dev s2 tr2 /\ pending s1 = None /\ pending s2 = None /\
  expert_mode s1 = expert_mode s2 /\ deploys_only tr1 /\ deploys_only tr2 /\ tr1 <> tr2.
Proof.
  assert (F : Forall event_ok message_run) by (apply events_ok_ok; vm_compute; reflexivity).
  pose (ck := fun (x : AppFacts.entry) => match x with (Apdu bs _, _, _) => negb (is_submission bs) | _ => true end).
  assert (H : ended (fun s tr => (pending s, expert_mode s, match tr with [] => false | _ => forallb ck tr end)) message_run = Some (None, false, true)) by (vm_compute; reflexivity).
  destruct (ended_ok _ _ _ F H) as (s & tr & R & E). injection E as E1 E2 E3. clear H.
  exists (boot dev), [], s, tr. split; [apply reach_boot|]. split; [exact R|]. split; [reflexivity|]. split; [exact E1|]. split; [rewrite E2; reflexivity|].
  split; [intros tr0 bs st rp tr' X; destruct tr0; discriminate X|]. destruct tr as [|y tr]; [discriminate E3|].
  split; [|discriminate]. rewrite forallb_forall in E3. intros tr0 bs st0 rp tr' Et _ X.
  specialize (E3 (Apdu bs true, st0, rp) ltac:(rewrite Et; apply in_or_app; right; left; reflexivity)). unfold ck in E3. rewrite X in E3. discriminate E3.
Qed.

(** * C59 *)
Definition short_chunks (l : list (list Z)) : bool := forallb (fun x => zlen x <=? 255) l.
Lemma short_chunks_ok l : short_chunks l = true -> Forall (fun x => zlen x <= 255) l.
Proof. intros H. apply Forall_forall. intros x I. unfold short_chunks in H. rewrite forallb_forall in H. specialize (H x I). lia. Qed.
Lemma header_good h : header_b h && (S.len (h_bodyhash h) =? 32) = true -> good_header h.
Proof.
  intros H. unfold header_b in H. bools. constructor; auto; try lia.
  - eapply forallb_Forall; [|eassumption]. intros x Hx. lia.
  - apply name_b_ok. assumption.
Qed.
Definition d_big := mk (Module (repeat 170 600) [arg_note 3]).
Lemma big_code_case :
  exists d s tr p cs c dp code args, device_ok d /\ reach d s tr /\ deploys_only tr /\ pending s = None /\ 20 <= zlen p /\ SA.casper_path (SS.words5 p) /\
    good_header (d_header dp) /\ d_hash dp = p_hash (plat d) (enc_header (d_header dp)) /\ bytes (enc_deploy dp) /\
    d_session dp = Module code args /\ zlen code < 2 ^ 32 - 65536 /\
    flash_size d < zlen (SS.before_code dp code) + zlen code /\ zlen (SS.before_code dp code) + 255 <= flash_size d /\
    List.concat cs ++ c = enc_deploy dp /\ Forall (fun x => zlen x <= 255) (cs ++ [c]).
Proof.
  destruct way_ok as (W1 & _ & W2).
  exists dev, (boot dev), [], way, (firstn 5 (pieces 200 (enc_deploy d_big))), (skipn 1000 (enc_deploy d_big)), d_big, (repeat 170 600), [arg_note 3].
  split; [exact dev_ok|]. split; [apply reach_boot|]. split; [intros tr0 bs st rp tr' X; destruct tr0; discriminate X|].
  split; [reflexivity|]. split; [exact W1|]. split; [exact W2|].
  split; [apply header_good; vm_compute; reflexivity|].
  split; [vm_compute; reflexivity|]. split; [apply bytesb_ok; vm_compute; reflexivity|]. split; [reflexivity|].
  split; [reflexivity|]. split; [vm_compute; reflexivity|]. split; [vm_compute; discriminate|]. split; [vm_compute; reflexivity|].
  apply short_chunks_ok. vm_compute. reflexivity.
Qed.

(** A small module with many approvals: too large for the device, but its code
    is read completely, and it is refused. *)
Definition d_approved : SD.deploy :=
  let d := d_undelegate in SD.Deploy (d_header d) (d_hash d) (d_payment d) (d_session d) (repeat (Approval 1 demo_key (repeat 9 64)) 9).
Definition refused_by (tr : list AppFacts.entry) : bool :=
  match rev tr with (Apdu bs true, _, Status _ sw) :: _ => SA.last_chunk bs && negb (sw =? SA.ok) | _ => false end.
Definition refused_session (d : device) (es : list event) : bool :=
  match run d (boot d) es with Ret (s, tr) => (match pending s with None => true | _ => false end) && refused_by tr | _ => false end.
Lemma refused_session_ok d es : refused_session d es = true ->
  exists s tr bs st data sw, run d (boot d) es = Ret (s, tr ++ [(Apdu bs true, st, Status data sw)]) /\
    SA.last_chunk bs = true /\ sw <> SA.ok /\ pending s = None.
Proof.
  unfold refused_session. intros H. destruct (run d (boot d) es) as [[s tr]| |] eqn:R; try discriminate H. apply andb_prop in H. destruct H as [H1 H2].
  unfold refused_by, AppFacts.entry in H2. destruct (rev tr) as [|[[e st] rp] q] eqn:Eq; [discriminate H2|]. destruct e as [bs []| | |]; try discriminate H2.
  destruct rp as [data sw| |]; try discriminate H2. apply andb_prop in H2. destruct H2 as [H2 H3].
  exists s, (rev q), bs, st, data, sw.
  split; [f_equal; f_equal; rewrite <- (rev_involutive tr), Eq; reflexivity|]. split; [exact H2|]. split; [lia|].
  destruct (pending s); [discriminate H1 | reflexivity].
Qed.
Lemma large_refused :
  exists d dp code args p cs c s tr bs st data sw, device_ok d /\ good_deploy (p_hash (plat d)) dp /\ d_session dp = Module code args /\
    flash_size d < zlen (enc_deploy dp) /\ 20 <= zlen p /\ SA.casper_path (SS.words5 p) /\
    List.concat cs ++ c = enc_deploy dp /\ Forall (fun x => zlen x <= 255) (cs ++ [c]) /\
    run d (boot d) (sends 4 p cs c) = Ret (s, tr ++ [(Apdu bs true, st, Status data sw)]) /\ SA.last_chunk bs = true /\ sw <> SA.ok /\ pending s = None.
Proof.
  destruct way_ok as (W1 & _ & W2).
  destruct (refused_session_ok dev (sends 4 way (firstn 6 (pieces 200 (enc_deploy d_approved))) (skipn 1200 (enc_deploy d_approved)))) as (s & tr & bs & st & data & sw & R);
    [vm_compute; reflexivity|].
  exists dev, d_approved, [0; 97; 115; 109], [arg_amount; arg_validator; arg_delegator; arg_auction], way,
    (firstn 6 (pieces 200 (enc_deploy d_approved))), (skipn 1200 (enc_deploy d_approved)), s, tr, bs, st, data, sw.
  split; [exact dev_ok|]. split; [good_by|]. split; [reflexivity|]. split; [vm_compute; reflexivity|]. split; [exact W1|]. split; [exact W2|].
  split; [vm_compute; reflexivity|]. split; [apply short_chunks_ok; vm_compute; reflexivity|]. exact R.
Qed.
