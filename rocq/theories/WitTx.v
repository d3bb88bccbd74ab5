(** Concrete TransactionV1s: cases that meet the hypotheses of the theorems,
    and witnesses for the refutations. *)
From Verif Require Import Base Zxlib Crypto Utils RuntimeArg Deploy DeployUI TxV1 TxV1UI Parser BaseFacts Spec SpecText SpecDeploy SpecTx Exec ArgsFacts ReaderFacts TextFacts Shows DeployArgs SessionFacts ReviewFacts Demo DeployCases WitDeploy TxFacts TxBody TxShow TxReview.
Import S ST SD SX.

(** * Checking that a concrete transaction is well-formed *)
Definition initiator_b (a : initiator) : bool :=
  match a with
  | PublicKey alg key => ((alg =? 1) || (alg =? 2)) && (S.len key =? key_len alg)
  | AccountHash h => S.len h =? 32
  end.
Definition pricing_b (p : pricing) : bool :=
  match p with
  | Classic a g _ => (0 <=? a) && (a <? 2 ^ 64) && (0 <=? g) && (g <? 256)
  | Fixed g f => (0 <=? g) && (g <? 256) && (0 <=? f) && (f <? 256)
  | Prepaid r => S.len r =? 32
  end.
Definition runtime_b (r : runtime) : bool :=
  match r with
  | VmV1 => true
  | VmV2 v s => (0 <=? v) && (v <? 2 ^ 64) && match s with None => true | Some h => S.len h =? 32 end
  end.
Definition id_b (t : SD.target) : bool :=
  match t with
  | ByHash h => S.len h =? 32
  | ByName n => name_b 99 n
  | ByHashV h v => (S.len h =? 32) && ver_b v
  | ByNameV n v => name_b 99 n && ver_b v
  end.
Definition xtarget_b (t : xtarget) : bool :=
  match t with Native => true | XStored i r => id_b i && runtime_b r | Session _ r _ => runtime_b r end.
Definition entry_b (e : entry) : bool := match e with Custom n => name_b 99 n | _ => true end.
Definition payload_b (p : payload) : bool :=
  initiator_b (x_initiator p) && (0 <=? x_time p) && (x_time p <? 2 ^ 64) && (0 <=? x_ttl p) && (x_ttl p <? 2 ^ 64)
  && pricing_b (x_pricing p) && forallb arg_b (named (x_args p)) && xtarget_b (x_target p) && entry_b (x_entry p).
(** everything but the length and the characters of the chain name *)
Definition check_v1 (H : list Z -> list Z) (t : transaction) : bool :=
  payload_b (x_payload t) && list_eqb (x_hash t) (H (enc_payload (x_payload t))) && forallb approval_b (x_approvals t)
  && (S.len (x_approvals t) <? 256) && bytesb (enc_transaction t) && (S.len (enc_v1 t) <? 65536).

Lemma check_v1_good H t : hash32 H -> check_v1 H t && name_b 99 (x_chain (x_payload t)) = true -> good_transaction H t.
Proof.
  intros Hh B. unfold check_v1, payload_b in B. bools.
  match goal with X : list_eqb (x_hash t) _ = true |- _ => apply list_eqb_eq in X; rename X into EH end.
  assert (LH : S.len (x_hash t) = 32) by (rewrite EH; apply Hh).
  assert (V : forall v, ver_b v = true -> good_ver v) by (intros [n|]; cbn [ver_b good_ver]; [lia|auto]).
  assert (R : forall r, runtime_b r = true -> good_runtime r).
  { intros [|v [h|]]; cbn [runtime_b good_runtime]; intros; bools; auto; repeat split; auto; try lia; unfold S.len in *; lia. }
  constructor; auto; try lia.
  - constructor; try lia.
    + destruct (x_initiator (x_payload t)) as [alg key|h]; cbn [initiator_b good_initiator] in *; bools; [|lia].
      split; [|lia]. match goal with X : _ || _ = true |- _ => apply orb_prop in X; destruct X; [left|right]; lia end.
    + apply name_b_ok. assumption.
    + destruct (x_pricing (x_payload t)); cbn [pricing_b good_pricing] in *; bools; lia.
    + unfold good_xargs. eapply forallb_Forall; [|eassumption]. intros a Ha. unfold arg_b in Ha. bools. split; [assumption | apply name_b_ok; assumption].
    + destruct (x_target (x_payload t)) as [|i r|u r w]; cbn [xtarget_b good_xtarget] in *; bools; auto.
      split; [|apply R; assumption].
      destruct i; cbn [id_b good_id] in *; bools; repeat split; auto; try lia; eapply name_b_ok; eassumption.
    + destruct (x_entry (x_payload t)); cbn [entry_b good_entry] in *; auto. apply name_b_ok. assumption.
  - eapply forallb_Forall; [|eassumption]. intros a Ha. unfold approval_b in Ha. bools. split; [|split; lia].
    match goal with X : _ || _ = true |- _ => apply orb_prop in X; destruct X; [left|right]; lia end.
  - apply bytesb_ok. assumption.
Qed.
Ltac v1_good := apply check_v1_good; [exact demo_hash32 | vm_compute; reflexivity].

(** * Demonstration transactions *)
Definition mkx (who : initiator) (chain : string) (q : pricing) (a : args) (t : xtarget) (e : entry) : transaction :=
  seal_v1 demo_hash (Payload who 1700000000000 1800000 (text chain) q a t e) demo_appr.
Definition alice := PublicKey 1 demo_key.
Definition bob := PublicKey 2 (repeat 18 33).
Definition carol := AccountHash (repeat 19 32).
Definition classic := Classic 2500000000 2 true.

Definition arg_pk := Arg (text "public_key") (1 :: repeat 20 32) (Prim 22).
Definition arg_npk := Arg (text "new_public_key") (2 :: repeat 21 33) (Prim 22).
Definition arg_vpk := Arg (text "validator_public_key") (1 :: repeat 22 32) (Prim 22).
Definition arg_rate := Arg (text "delegation_rate") [10] (Prim 3).
Definition arg_min := Arg (text "minimum_delegation_amount") (le 8 500) (Prim 5).
Definition arg_max := Arg (text "maximum_delegation_amount") (le 8 900) (Prim 5).
Definition arg_slots := Arg (text "reserved_slots") (le 4 3) (Prim 4).
Definition arg_reserve := Arg (text "reservations") (le 4 2 ++ repeat 77 20) (CList (Prim 21)).
Definition arg_delegators := Arg (text "delegators") (le 4 1 ++ repeat 78 33) (CList (Prim 22)).

Definition native_args (n : native) : list arg :=
  match n with
  | NTransfer => [arg_source; arg_amount; arg_id; arg_target]
  | NAddBid => [arg_rate; arg_pk; arg_min; arg_max; arg_amount; arg_slots]
  | NWithdrawBid => [arg_amount; arg_pk]
  | NDelegate | NUndelegate => [arg_amount; arg_delegator; arg_validator]
  | NRedelegate => [arg_amount; arg_delegator; arg_new; arg_validator]
  | NActivateBid => [arg_vpk]
  | NChangeKey => [arg_npk; arg_pk]
  | NAddReservations => [arg_reserve]
  | NCancelReservations => [arg_delegators; arg_validator]
  | NBurn => [arg_source; arg_amount]
  end.
Definition t_native (n : native) : transaction :=
  mkx (match n with NTransfer => bob | NAddBid => carol | _ => alice end) "casper"
      (match n with NDelegate => Fixed 3 1 | NBurn => Prepaid (repeat 7 32) | _ => classic end)
      (Named (native_args n)) Native (Op n).
Definition t_call (i : SD.target) (a : args) : transaction :=
  mkx alice "casper" classic a (XStored i VmV1) (Custom (text "mint")).

Lemma t_native_good n : good_transaction (p_hash demo) (t_native n).
Proof. destruct n; v1_good. Qed.
Lemma v1_expert x p : (x_ttl p / 1000 <? 29 * 86400) && match x_pricing p with Classic a _ _ => a <? 10 ^ 19 | _ => true end = true ->
  xexpert_ok x (p_time demo) p.
Proof.
  intros T _. apply andb_true_iff in T. destruct T as [T1 T2]. split; [lia|]. split; [eexists; reflexivity|].
  destruct (x_pricing p); auto. apply Z.ltb_lt. exact T2.
Qed.
Definition is_some {A} (o : option A) : bool := match o with Some _ => true | None => false end.
Lemma is_some_ok {A} (o : option A) : is_some o = true -> exists a, o = Some a.
Proof. destruct o; [eauto | discriminate]. Qed.

Lemma native_case x n :
  good_transaction (p_hash demo) (t_native n) /\ xexpert_ok x (p_time demo) (x_payload (t_native n)) /\
  before_args (t_native n) < 256 /\ exists lines, review (p_hash demo) x (t_native n) = Some lines.
Proof.
  split; [apply t_native_good|]. split; [apply v1_expert; destruct n; reflexivity|].
  split; [destruct n; vm_compute; reflexivity|]. apply is_some_ok. destruct x, n; vm_compute; reflexivity.
Qed.

Definition t_calls : list transaction :=
  [t_call (ByHash (repeat 8 32)) (Named [arg_note 65; arg_amount]); t_call (ByName (text "counter")) (Raw [1; 2; 3]);
   t_call (ByHashV (repeat 8 32) (Some 3)) (Named []); t_call (ByNameV (text "counter") (Some 0)) (Named [arg_note 65])].
Lemma call_case x t : In t t_calls ->
  good_transaction (p_hash demo) t /\ xexpert_ok x (p_time demo) (x_payload t) /\
  before_args t < 256 /\ exists lines, review (p_hash demo) x t = Some lines.
Proof.
  intros I. cbn [t_calls In] in I. repeat destruct I as [<-|I]; try contradiction;
  (split; [v1_good|]; split; [apply v1_expert; reflexivity|]; split; [vm_compute; reflexivity|];
   apply is_some_ok; destruct x; vm_compute; reflexivity).
Qed.

(** * Arguments that start beyond byte 255 of the transaction *)
(** A transfer with a secp256k1 account, prepaid, on casper-test. *)
Definition t_long := mkx bob "casper-test" (Prepaid (repeat 7 32)) (Named [arg_id; arg_target; arg_amount]) Native (Op NTransfer).
(** The same account calling a contract. *)
Definition call_long (chain : string) :=
  mkx bob chain (Prepaid (repeat 7 32)) (Named [arg_note 65; arg_amount]) (XStored (ByName (text "counter")) VmV1) (Custom (text "mint")).
(** A chain name that contains other arguments. *)
Definition spoof_args : list arg := [arg_id; arg_target; arg_amount].
Definition spoof_chain : list Z :=
  let c := text "casper" ++ repeat 65 58 ++ enc_arg_list spoof_args in c ++ repeat 65 (262 - List.length c).
Definition t_spoof (l : list arg) : transaction :=
  seal_v1 demo_hash (Payload alice 1700000000000 1800000 spoof_chain classic (Named l) Native (Op NTransfer)) demo_appr.

(** a call whose stored contract has no version *)
Definition t_nover := t_call (ByHashV (repeat 8 32) None) (Named []).
(** a redelegation with [k] further arguments *)
Definition t_many (k : nat) := mkx alice "casper" classic (Named ([arg_new; arg_amount] ++ repeat (Arg [97] [] (Prim 0)) k)) Native (Op NRedelegate).
(** [bs] with the byte at [i] replaced *)
Definition poke (i : nat) (b : Z) (bs : list Z) : list Z := firstn i bs ++ [b] ++ skipn (i + 1) bs.

Definition refused (o : outcome txn) : bool := match o with Fail _ => true | _ => false end.
Lemma refused_ok o : refused o = true -> exists c, o = Fail c.
Proof. destruct o; try discriminate. eauto. Qed.
Definition taken (o : outcome txn) : bool := match o with Ret _ => true | _ => false end.
Lemma taken_ok o : taken o = true -> exists t, o = Ret t.
Proof. destruct o; try discriminate. eauto. Qed.

Lemma long_refuted :
  exists pf t, hash32 (p_hash pf) /\ good_transaction (p_hash pf) t /\
    (exists l, x_entry (x_payload t) = Op NTransfer /\ x_target (x_payload t) = Native /\ x_args (x_payload t) = Named l) /\
    (forall x, xexpert_ok x (p_time pf) (x_payload t) /\ (exists lines, review (p_hash pf) x t = Some lines) /\
               exists c, tx_parse pf x (enc_v1 t) = Fail c).
Proof.
  exists demo, t_long. split; [exact demo_hash32|]. split; [v1_good|]. split; [eexists; repeat split; reflexivity|].
  intros x. split; [apply v1_expert; reflexivity|]. split; [apply is_some_ok; destruct x; vm_compute; reflexivity|].
  apply refused_ok. destruct x; vm_compute; reflexivity.
Qed.

(** the text on screen of item [i] *)
Definition shown_text (pf : platform) (x : bool) (data : list Z) (i : Z) : option (list Z * dval) :=
  match tx_parse pf x data with
  | Ret t => match tx_getItem pf x 40 data t i with Ret it => Some (ikey it, ival it) | _ => None end
  | _ => None
  end.
Definition paged (d : dval) : list Z := match d with VPaged s => s | VDirect s => s end.
Lemma shown_text_ok pf x data i k d : shown_text pf x data i = Some (k, d) ->
  exists t it, tx_parse pf x data = Ret t /\ tx_getItem pf x 40 data t i = Ret it /\ ikey it = k /\ ival it = d.
Proof.
  unfold shown_text. destruct (tx_parse pf x data) as [t| |] eqn:P; try discriminate.
  destruct (tx_getItem pf x 40 data t i) as [it| |] eqn:I; try discriminate. intros H. injection H as <- <-. eauto 8.
Qed.

(** C14: accepted, without any of the arguments of a transfer *)
Definition sealed (H : list Z -> list Z) (t : transaction) : Prop :=
  x_hash t = H (enc_payload (x_payload t)) /\ zlen (enc_v1 t) < 65536 /\ bytes (enc_v1 t) /\ good_xargs (x_args (x_payload t)).
Lemma check_sealed H t : check_v1 H t = true -> sealed H t.
Proof.
  intros B. unfold check_v1, payload_b in B. bools. unfold sealed. change (zlen (enc_v1 t)) with (S.len (enc_v1 t)).
  split; [apply list_eqb_eq; assumption|]. split; [lia|]. split.
  - unfold enc_v1. apply Forall_cons; [unfold byte; cbn; lia | apply bytesb_ok; assumption].
  - unfold good_xargs. eapply forallb_Forall; [|eassumption]. intros a Ha. unfold arg_b in Ha. bools. split; [assumption | apply name_b_ok; assumption].
Qed.
Lemma spoof_missing_refuted :
  exists pf t l, hash32 (p_hash pf) /\ x_entry (x_payload t) = Op NTransfer /\ x_args (x_payload t) = Named l /\
    sealed (p_hash pf) t /\
    (forall name, In name ["amount"; "target"; "id"]%string -> find_arg (text name) l = None) /\
    forall x, accepted pf x (enc_v1 t).
Proof.
  exists demo, (t_spoof [arg_note 65; arg_note 66; arg_note 67]). eexists. split; [exact demo_hash32|].
  split; [reflexivity|]. split; [reflexivity|]. split; [apply check_sealed; vm_compute; reflexivity|].
  split; [intros name I; cbn [In] in I; repeat destruct I as [<-|I]; try contradiction; vm_compute; reflexivity|].
  intros x. apply taken_ok. destruct x; vm_compute; reflexivity.
Qed.

(** C17: the target on screen is not the target of the transfer *)
Definition arg_thief := Arg (text "target") (1 :: repeat 66 32) (Prim 22).
Lemma spoof_target_refuted :
  exists pf t l v it a, hash32 (p_hash pf) /\ x_entry (x_payload t) = Op NTransfer /\ x_target (x_payload t) = Native /\
    x_args (x_payload t) = Named l /\ sealed (p_hash pf) t /\
    tx_parse pf false (enc_v1 t) = Ret v /\ tx_getItem pf false 40 (enc_v1 t) v 4 = Ret it /\ ikey it = text "Target" /\
    find_arg (text "target") l = Some a /\
    forall w, arg_view (a_ty a) (a_val a) = Some w -> ~ renders (p_hash pf) (p_time pf) w (ival it).
Proof.
  exists demo, (t_spoof [arg_id; arg_thief; arg_amount]). eexists _, _, _, _. split; [exact demo_hash32|].
  split; [reflexivity|]. split; [reflexivity|]. split; [reflexivity|]. split; [apply check_sealed; vm_compute; reflexivity|].
  split; [vm_compute; reflexivity|]. split; [vm_compute; reflexivity|]. split; [reflexivity|]. split; [vm_compute; reflexivity|].
  intros w V. vm_compute in V. injection V as <-. vm_compute. discriminate.
Qed.

(** C17, well-formed: the hash on screen is not the hash of the arguments *)
Lemma wrong_hash_refuted :
  exists pf t v it, hash32 (p_hash pf) /\ good_transaction (p_hash pf) t /\
    (exists name i r, x_entry (x_payload t) = Custom name /\ x_target (x_payload t) = XStored i r) /\
    tx_parse pf false (enc_v1 t) = Ret v /\ tx_getItem pf false 40 (enc_v1 t) v 7 = Ret it /\ ikey it = text "Args hash" /\
    ~ renders (p_hash pf) (p_time pf) (Hex (p_hash pf (arg_bytes (x_args (x_payload t))))) (ival it).
Proof.
  exists demo, (call_long "casper-testnet-1"). eexists _, _. split; [exact demo_hash32|]. split; [v1_good|].
  split; [eexists _, _, _; split; reflexivity|]. split; [vm_compute; reflexivity|]. split; [vm_compute; reflexivity|].
  split; [reflexivity|]. vm_compute. discriminate.
Qed.

(** C30: reading outside the buffer while the review is prepared *)
Lemma oob_refuted :
  exists pf t, hash32 (p_hash pf) /\ good_transaction (p_hash pf) t /\ (exists v, parser_parse pf false (enc_v1 t) = Ret v) /\
    tx_parse pf false (enc_v1 t) = Undef OobRead.
Proof.
  exists demo, (call_long "casper-test"). split; [exact demo_hash32|]. split; [v1_good|]. split; [apply taken_ok|]; vm_compute; reflexivity.
Qed.

(** C18 *)
Lemma many_args_refuted :
  exists pf t1 t2 l1 more v1 v2, hash32 (p_hash pf) /\ good_transaction (p_hash pf) t1 /\ good_transaction (p_hash pf) t2 /\
    x_args (x_payload t1) = Named l1 /\
    x_payload t2 = Payload (x_initiator (x_payload t1)) (x_time (x_payload t1)) (x_ttl (x_payload t1)) (x_chain (x_payload t1))
                     (x_pricing (x_payload t1)) (Named (l1 ++ more)) (x_target (x_payload t1)) (x_entry (x_payload t1)) /\
    tx_parse pf false (enc_v1 t1) = Ret v1 /\ tx_parse pf false (enc_v1 t2) = Ret v2 /\
    getNumItems false v1 = 6 /\ getNumItems false v2 = 0.
Proof.
  exists demo, (t_many 0), (t_many 250). eexists _, (repeat (Arg [97] [] (Prim 0)) 250), _, _.
  split; [exact demo_hash32|]. split; [v1_good|]. split; [v1_good|]. split; [reflexivity|]. split; [reflexivity|].
  split; [vm_compute; reflexivity|]. split; [vm_compute; reflexivity|]. split; vm_compute; reflexivity.
Qed.

(** C19 *)
Lemma no_version_refuted :
  exists pf t v name i r, hash32 (p_hash pf) /\ good_transaction (p_hash pf) t /\
    x_entry (x_payload t) = Custom name /\ x_target (x_payload t) = XStored i r /\
    xexpert_ok true (p_time pf) (x_payload t) /\ before_args t < 256 /\
    tx_parse pf true (enc_v1 t) = Ret v /\
    forall k it, 0 <= k < getNumItems true v -> tx_getItem pf true 40 (enc_v1 t) v k = Ret it -> ikey it <> text "Args hash".
Proof.
  exists demo, t_nover. eexists _, _, _, _. split; [exact demo_hash32|]. split; [v1_good|]. split; [reflexivity|]. split; [reflexivity|].
  split; [apply v1_expert; reflexivity|]. split; [vm_compute; reflexivity|]. split; [vm_compute; reflexivity|].
  intros k it K. cbn [getNumItems numItems] in K. 
  assert (D : exists n, (n < 13)%nat /\ k = Z.of_nat n) by (exists (Z.to_nat k); lia). destruct D as (n & L & ->). clear K. revert it.
  do 13 (destruct n as [|n]; [intros it E; vm_compute in E; injection E as <-; vm_compute; discriminate|]). lia.
Qed.

(** C12: a table that claims 259 fields *)
Lemma field_count_refuted :
  exists pf data, hash32 (p_hash pf) /\ accepted pf true (1 :: data) /\ value (firstn 4 data) = 259.
Proof.
  exists demo, (poke 1 1 (enc_transaction (t_native NTransfer))). split; [exact demo_hash32|]. split; [apply taken_ok|]; vm_compute; reflexivity.
Qed.
(** ... and one that says its fields are 65536 bytes longer than they are *)
Lemma section_size_refuted :
  exists pf data, hash32 (p_hash pf) /\ accepted pf true (1 :: data) /\ value (firstn 4 data) = 3 /\
    26 + value (firstn 4 (skipn 22 data)) = zlen data + 65536.
Proof.
  exists demo, (poke 24 1 (enc_transaction (t_native NTransfer))). split; [exact demo_hash32|]. split; [apply taken_ok; vm_compute; reflexivity|].
  split; vm_compute; reflexivity.
Qed.
