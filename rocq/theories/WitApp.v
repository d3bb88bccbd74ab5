(** Concrete histories for the properties of the application. *)
From Verif Require Import Base Zxlib Crypto Utils RuntimeArg Deploy DeployUI TxV1 TxV1UI Parser BaseFacts Spec SpecText SpecDeploy SpecTx Exec ArgsFacts ReaderFacts TextFacts Demo DeployCases WitDeploy BindCases WitBind SpecApp App AppFacts AppHist AppClaims AppSign.

(** A small device; the sizes of the buffers do not matter for what follows. *)
Definition dev : device :=
  mkDevice demo 300 700 (fun p => Some (2 :: repeat 7 32)) (fun _ => str "m/44'/506'/0'/0/0")
           [0; 1; 2; 3; 0; 1; 2; 3; 4] (fun _ => mkHeader 0 0 0) (fun _ => 0).
Lemma dev_ok : device_ok dev.
Proof. constructor; cbn; try lia. exact demo_hash32. Qed.
Lemma dev_keys : keys_ok dev.
Proof.
  constructor. intros p k H. injection H as <-. split; [reflexivity|]. apply bytesb_ok. reflexivity.
Qed.

(** * Commands *)
Definition apdu (ins p1 : Z) (data : list Z) : event := Apdu ([17; ins; p1; 0; zlen data] ++ data) true.
Definition words5 (l : list Z) : list Z := flat_map (S.le 4) l.
Definition casper (i : Z) : list Z := [2147483692; 2147484154; 2147483648; 0; i].
Definition other_path : list Z := [2147483692; 2147483708; 2147483648; 0; 0].
Definition pieces (n : nat) (bs : list Z) : list (list Z) :=
  (fix go (k : nat) (l : list Z) := match k with
     | O => [] | S k' => if (zlen l <=? Z.of_nat n) then [l] else firstn n l :: go k' (skipn n l) end) 40%nat bs.
Fixpoint chunks (ins : Z) (l : list (list Z)) : list event :=
  match l with
  | [] => []
  | [x] => [apdu ins 2 x]
  | x :: r => apdu ins 1 x :: chunks ins r
  end.
Definition start (ins : Z) (path : list Z) : event := apdu ins 0 (words5 path).
Definition submit (ins : Z) (path data : list Z) : list event :=
  start ins path :: chunks ins (pieces 200 data).

(** * Reading off a history that ends with a signature *)
Definition verdict {X} (f : app -> list entry -> X) (es : list event) : option (list Z * list Z * X) :=
  match run dev (boot dev) es with
  | Ret (_, tr) =>
      match rev tr with
      | (Approve true, st, Signed p pre) :: before => Some (p, pre, f st (rev before))
      | _ => None
      end
  | _ => None
  end.
Lemma verdict_ok {X} (f : app -> list entry -> X) es p pre v : Forall event_ok es -> verdict f es = Some (p, pre, v) ->
  exists s tr1 st, reach dev s (tr1 ++ [(Approve true, st, Signed p pre)]) /\ f st tr1 = v.
Proof.
  intros F H. unfold verdict in H. destruct (run dev (boot dev) es) as [[s tr]| |] eqn:R; try discriminate.
  destruct (rev tr) as [|[[e st] rp] before] eqn:E; [discriminate|].
  destruct e as [| [] | |]; try discriminate. destruct rp; try discriminate. injection H as <- <- <-.
  exists s, (rev before), st. split; [|reflexivity]. exists es. split; [exact F|]. rewrite R. f_equal. f_equal.
  rewrite <- (rev_involutive tr), E. reflexivity.
Qed.
Definition events_ok (es : list event) : bool :=
  forallb (fun e => match e with Apdu bs _ => bytesb bs | _ => true end) es.
Lemma events_ok_ok es : events_ok es = true -> Forall event_ok es.
Proof.
  intros H. apply Forall_forall. intros e I. unfold events_ok in H. rewrite forallb_forall in H. specialize (H e I).
  destruct e; cbn; auto. apply bytesb_ok. exact H.
Qed.
(** the state and history at the end *)
Definition ended {X} (f : app -> list entry -> X) (es : list event) : option X :=
  match run dev (boot dev) es with Ret (s, tr) => Some (f s tr) | _ => None end.
Lemma ended_ok {X} (f : app -> list entry -> X) es v : Forall event_ok es -> ended f es = Some v ->
  exists s tr, reach dev s tr /\ f s tr = v.
Proof.
  intros F H. unfold ended in H. destruct (run dev (boot dev) es) as [[s tr]| |] eqn:R; try discriminate.
  injection H as <-. exists s, tr. split; [|reflexivity]. exists es. auto.
Qed.

(** * Transactions *)
Definition deploy_bytes : list Z := 0 :: plain_tx.
Definition prefix : list Z := S.text "Casper Message:" ++ [10].
Definition hello : list Z := prefix ++ S.text "hello".
Definition small_payload : SX.payload :=
  SX.Payload (SX.PublicKey 1 demo_key) 1700000000000 1800000 (S.text "casper") (SX.Classic 100 1 true)
             (SX.Named []) SX.Native SX.Call.
(** a well-formed transaction, and one with a wrong hash *)
Definition v1_bytes : list Z := SX.enc_v1 (SX.seal_v1 demo_hash small_payload []).
Definition v1_wrong : list Z := SX.enc_v1 (SX.Transaction (repeat 0 32) small_payload []).


(** * Reviews and signatures that go together *)
Definition plain_run : list event := submit 2 (casper 0) deploy_bytes ++ [Approve true].
Definition v1_run : list event := submit 2 (casper 0) v1_bytes ++ [Approve true].
Definition message_run : list event := submit 3 (casper 0) hello ++ [Approve true].

(** A raw-WASM deploy whose code does not fit the device. *)
Definition wasm_header : list Z :=
  [1] ++ demo_key ++ S.le 8 1700000000000 ++ S.le 8 1800000 ++ S.le 8 1 ++ repeat 9 32
  ++ S.le 4 0 ++ S.lv (S.text "casper").
Definition wasm_bytes : list Z :=
  wasm_header ++ demo_hash wasm_header ++ SD.enc_payment demo_pay ++ [0] ++ S.le 4 5000 ++ repeat 170 700.
Definition wasm_run : list event := submit 4 (casper 0) wasm_bytes ++ [Approve true].


Definition attack_msg (h : list Z) : list event :=
  submit 2 (casper 0) v1_wrong ++ [start 3 (casper 0); apdu 3 2 (prefix ++ repeat 46 11 ++ h); Approve true].

Definition attack_wasm (h : list Z) : list event :=
  start 4 (casper 0) :: map (apdu 4 1) (firstn 4 (pieces 200 wasm_bytes)) ++
  [start 2 (casper 0); apdu 4 2 (repeat 0 103 ++ h); Approve true].

Definition attack_path : list event :=
  start 2 (casper 0) :: submit 2 other_path deploy_bytes ++ [Approve true].
Definition attack_addr : list event :=
  start 2 (casper 0) :: start 1 (casper 7) :: tl (submit 2 other_path deploy_bytes) ++ [Approve true].

Definition attack_drop : list event :=
  start 4 (casper 0) :: map (apdu 4 1) (firstn 4 (pieces 200 wasm_bytes)) ++
  [start 2 (casper 0); apdu 2 1 (firstn 200 deploy_bytes); apdu 2 1 (firstn 150 (skipn 200 deploy_bytes));
   apdu 4 1 (repeat 0 200); apdu 4 1 (repeat 0 200); apdu 2 2 (skipn 350 deploy_bytes)].

(** * Lemmas *)
Ltac list32 h H :=
  destruct h as [|h00 h]; [discriminate|]; destruct h as [|h01 h]; [discriminate|]; destruct h as [|h02 h]; [discriminate|];
  destruct h as [|h03 h]; [discriminate|]; destruct h as [|h04 h]; [discriminate|]; destruct h as [|h05 h]; [discriminate|];
  destruct h as [|h06 h]; [discriminate|]; destruct h as [|h07 h]; [discriminate|]; destruct h as [|h08 h]; [discriminate|];
  destruct h as [|h09 h]; [discriminate|]; destruct h as [|h10 h]; [discriminate|]; destruct h as [|h11 h]; [discriminate|];
  destruct h as [|h12 h]; [discriminate|]; destruct h as [|h13 h]; [discriminate|]; destruct h as [|h14 h]; [discriminate|];
  destruct h as [|h15 h]; [discriminate|]; destruct h as [|h16 h]; [discriminate|]; destruct h as [|h17 h]; [discriminate|];
  destruct h as [|h18 h]; [discriminate|]; destruct h as [|h19 h]; [discriminate|]; destruct h as [|h20 h]; [discriminate|];
  destruct h as [|h21 h]; [discriminate|]; destruct h as [|h22 h]; [discriminate|]; destruct h as [|h23 h]; [discriminate|];
  destruct h as [|h24 h]; [discriminate|]; destruct h as [|h25 h]; [discriminate|]; destruct h as [|h26 h]; [discriminate|];
  destruct h as [|h27 h]; [discriminate|]; destruct h as [|h28 h]; [discriminate|]; destruct h as [|h29 h]; [discriminate|];
  destruct h as [|h30 h]; [discriminate|]; destruct h as [|h31 h]; [discriminate|];
  destruct h as [|h32 h]; [|exfalso; rewrite !zlen_cons in H; pose proof (zlen_nonneg h); lia].

Lemma attack_msg_ok h : zlen h = 32 -> bytes h -> Forall event_ok (attack_msg h).
Proof.
  intros L B. unfold attack_msg. apply Forall_app. split; [apply events_ok_ok; vm_compute; reflexivity|].
  constructor; [apply bytesb_ok; vm_compute; reflexivity|]. constructor; [|constructor; [exact I|constructor]].
  cbn [event_ok apdu]. apply bytes_app. split.
  - rewrite !zlen_app, L. apply bytesb_ok. vm_compute. reflexivity.
  - rewrite !bytes_app. split; [apply bytesb_ok; vm_compute; reflexivity|]. split; [apply bytesb_ok; vm_compute; reflexivity | exact B].
Qed.
Lemma attack_msg_run h : zlen h = 32 ->
  verdict (fun st _ => (pending st, tx_data (bufs st))) (attack_msg h)
  = Some (casper 0, h, (Some RMsg, prefix ++ repeat 46 11 ++ h)).
Proof. intros L. list32 h L. vm_compute. reflexivity. Qed.

(** Any 32 bytes can be signed through a message review. *)
Lemma message_forgery h : zlen h = 32 -> bytes h ->
  exists d s tr1 st p, device_ok d /\ reach d s (tr1 ++ [(Approve true, st, Signed p h)]) /\
    pending st = Some RMsg /\ tx_data (bufs st) = prefix ++ repeat 46 11 ++ h /\ SA.casper_path p.
Proof.
  intros L B. destruct (verdict_ok _ _ _ _ _ (attack_msg_ok h L B) (attack_msg_run h L)) as (s & tr1 & st & R & E).
  injection E as E1 E2. exists dev, s, tr1, st, (casper 0). split; [exact dev_ok|]. split; [exact R|]. split; [exact E1|].
  split; [exact E2|]. split; reflexivity.
Qed.

Lemma attack_wasm_ok h : zlen h = 32 -> bytes h -> Forall event_ok (attack_wasm h).
Proof.
  intros L B. unfold attack_wasm. constructor; [apply bytesb_ok; vm_compute; reflexivity|].
  apply Forall_app. split; [apply events_ok_ok; vm_compute; reflexivity|].
  constructor; [apply bytesb_ok; vm_compute; reflexivity|]. constructor; [|constructor; [exact I|constructor]].
  cbn [event_ok apdu]. apply bytes_app. split.
  - rewrite !zlen_app, L. apply bytesb_ok. vm_compute. reflexivity.
  - rewrite !bytes_app. split; [apply bytesb_ok; vm_compute; reflexivity | exact B].
Qed.
Lemma attack_wasm_run h : zlen h = 32 ->
  verdict (fun st _ => (pending st, review_item dev st RWasm 40 0, review_item dev st RWasm 40 1)) (attack_wasm h)
  = Some (casper 0, h, (Some RWasm,
      Ret (mkItem (S.text "DeployHash") (VPaged (ST.hex_lower (demo_hash wasm_header)))),
      Ret (mkItem (S.text "BodyHash") (VPaged (ST.hex_lower (repeat 9 32)))))).
Proof. intros L. list32 h L. vm_compute. reflexivity. Qed.

(** Any 32 bytes can be signed through the review of another deploy. *)
Lemma wasm_forgery h : zlen h = 32 -> bytes h ->
  exists d s tr1 st p shown, device_ok d /\ reach d s (tr1 ++ [(Approve true, st, Signed p h)]) /\
    pending st = Some RWasm /\ SA.casper_path p /\
    review_item d st RWasm 40 0 = Ret (mkItem (S.text "DeployHash") (VPaged (ST.hex_lower shown))) /\
    shown = demo_hash wasm_header.
Proof.
  intros L B. destruct (verdict_ok _ _ _ _ _ (attack_wasm_ok h L B) (attack_wasm_run h L)) as (s & tr1 & st & R & E).
  injection E as E1 E2 E3. exists dev, s, tr1, st, (casper 0), (demo_hash wasm_header). split; [exact dev_ok|]. split; [exact R|].
  split; [exact E1|]. split; [split; reflexivity|]. split; [exact E2|reflexivity].
Qed.
Lemma wasm_refuted :
  exists d s tr1 st p pre shown, device_ok d /\ reach d s (tr1 ++ [(Approve true, st, Signed p pre)]) /\
    pending st = Some RWasm /\
    review_item d st RWasm 40 0 = Ret (mkItem (S.text "DeployHash") (VPaged (ST.hex_lower shown))) /\ shown <> pre.
Proof.
  destruct (wasm_forgery (repeat 1 32) eq_refl ltac:(apply bytesb_ok; reflexivity)) as (d & s & tr1 & st & p & sh & D & R & P & _ & V & E).
  exists d, s, tr1, st, p, (repeat 1 32), sh. repeat (split; [assumption|]). subst sh. vm_compute. discriminate.
Qed.
Lemma message_refuted :
  exists d s tr1 st p pre, device_ok d /\ reach d s (tr1 ++ [(Approve true, st, Signed p pre)]) /\
    pending st = Some RMsg /\ pre <> tx_data (bufs st) /\
    forall rest, pre <> S.text "Casper Message:" ++ [10] ++ rest.
Proof.
  destruct (message_forgery (repeat 1 32) eq_refl ltac:(apply bytesb_ok; reflexivity)) as (d & s & tr1 & st & p & D & R & P & V & _).
  exists d, s, tr1, st, p, (repeat 1 32). repeat (split; [assumption|]). split.
  - rewrite V. vm_compute. discriminate.
  - intros rest E. apply (f_equal (hd 0)) in E. vm_compute in E. discriminate.
Qed.

(** A signature with a path that is not the one of Casper. *)
Lemma path_refuted :
  exists d s tr1 st p pre, device_ok d /\ reach d s (tr1 ++ [(Approve true, st, Signed p pre)]) /\ ~ SA.casper_path p.
Proof.
  assert (F : Forall event_ok attack_path) by (apply events_ok_ok; vm_compute; reflexivity).
  assert (H : exists pre, verdict (fun _ _ => tt) attack_path = Some (other_path, pre, tt)) by (eexists; vm_compute; reflexivity).
  destruct H as (pre & H). destruct (verdict_ok _ _ _ _ _ F H) as (s & tr1 & st & R & _).
  exists dev, s, tr1, st, other_path, pre. split; [exact dev_ok|]. split; [exact R|]. intros [_ X]. vm_compute in X. discriminate.
Qed.
(** An address request between two chunks changes the signing key. *)
Lemma address_refuted :
  exists d s tr1 st p pre, device_ok d /\ reach d s (tr1 ++ [(Approve true, st, Signed p pre)]) /\
    forall tr0 bs st0 rp mid, tr1 = tr0 ++ (Apdu bs true, st0, rp) :: mid -> SA.initial bs = true -> SA.path bs <> p.
Proof.
  assert (F : Forall event_ok attack_addr) by (apply events_ok_ok; vm_compute; reflexivity).
  pose (ok := fun (x : entry) => match x with (Apdu bs _, _, _) => negb (SA.initial bs) || negb (list_eqb (SA.path bs) (casper 7)) | _ => true end).
  assert (H : exists pre, verdict (fun _ tr => forallb ok tr) attack_addr = Some (casper 7, pre, true)) by (eexists; vm_compute; reflexivity).
  destruct H as (pre & H). destruct (verdict_ok _ _ _ _ _ F H) as (s & tr1 & st & R & E).
  exists dev, s, tr1, st, (casper 7), pre. split; [exact dev_ok|]. split; [exact R|].
  intros tr0 bs st0 rp mid -> I X. rewrite forallb_forall in E. specialize (E (Apdu bs true, st0, rp) ltac:(apply in_or_app; right; left; reflexivity)).
  unfold ok in E. rewrite I, X in E. vm_compute in E. discriminate.
Qed.

(** Accepted payloads that are not part of the reviewed data. *)
Lemma dropped_refuted :
  exists d s tr t, device_ok d /\ reach d s tr /\ pending s = Some (RTx t) /\ tx_data (bufs s) <> sent tr /\
    Forall (fun x => snd x = Status [] SA.ok \/ snd x = NoReply) tr.
Proof.
  assert (F : Forall event_ok attack_drop) by (apply events_ok_ok; vm_compute; reflexivity).
  pose (ok := fun (x : entry) => match snd x with Status [] sw => sw =? SA.ok | NoReply => true | _ => false end).
  assert (H : ended (fun s tr => ((match pending s with Some (RTx _) => true | _ => false end), negb (list_eqb (tx_data (bufs s)) (sent tr)), forallb ok tr)) attack_drop = Some (true, true, true)) by (vm_compute; reflexivity).
  destruct (ended_ok _ _ _ F H) as (s & tr & R & E). injection E as E1 E2 E3.
  destruct (pending s) as [[t| | |]|] eqn:P; try discriminate E1. clear H.
  exists dev, s, tr, t. split; [exact dev_ok|]. split; [exact R|]. split; [exact P|]. split.
  - intros X. rewrite X in E2. rewrite (proj2 (list_eqb_eq _ _)) in E2 by reflexivity. discriminate E2.
  - apply Forall_forall. intros x I. rewrite forallb_forall in E3. specialize (E3 x I). unfold ok in E3.
    destruct (snd x) as [[|] sw| |]; try discriminate E3; auto. left. f_equal. lia.
Qed.

Definition reuse_run : list event := submit 3 (casper 0) hello ++ [Approve true; apdu 3 2 (S.text " again")].
Definition reuse_check (tr : list entry) : bool :=
  match tr with
  | [_; (Apdu bs true, s1, NoReply); (Approve _, _, _); (Apdu bs2 true, s3, NoReply)] =>
      match pending s1, pending s3 with None, None => SA.last_chunk bs && SA.chunk bs2 | _, _ => false end
  | _ => false
  end.
Lemma reuse_check_ok tr : reuse_check tr = true -> exists e0 bs s1 ok s2 r2 bs2 s3,
  tr = [e0; (Apdu bs true, s1, NoReply); (Approve ok, s2, r2); (Apdu bs2 true, s3, NoReply)] /\
  pending s1 = None /\ pending s3 = None /\ SA.last_chunk bs = true /\ SA.chunk bs2 = true.
Proof.
  unfold reuse_check. intros E.
  repeat match type of E with context [match ?x with _ => _ end] => destruct x eqn:?; try discriminate E end.
  subst. apply andb_prop in E. destruct E. repeat eexists; eauto.
Qed.
(** A second message, and a second signature, without an initial chunk. *)
Lemma reuse_refuted :
  exists d s tr1 st1 rp1 mid st2 rp2 bs bs2, device_ok d /\
    reach d s (tr1 ++ (Apdu bs true, st1, rp1) :: mid ++ [(Apdu bs2 true, st2, rp2)]) /\
    SA.last_chunk bs = true /\ pending st1 = None /\ rp1 = NoReply /\
    Forall (fun y => seen y = None) mid /\ SA.chunk bs2 = true /\ pending st2 = None /\ rp2 = NoReply.
Proof.
  assert (F : Forall event_ok reuse_run) by (apply events_ok_ok; vm_compute; reflexivity).
  assert (H : ended (fun _ tr => reuse_check tr) reuse_run = Some true) by (vm_compute; reflexivity).
  destruct (ended_ok _ _ _ F H) as (s & tr & R & E). apply reuse_check_ok in E.
  destruct E as (e0 & bs & s1 & ok & s2 & r2 & bs2 & s3 & -> & P1 & P3 & E1 & E2).
  exists dev, s, [e0], s1, NoReply, [(Approve ok, s2, r2)], s3, NoReply, bs, bs2.
  split; [exact dev_ok|]. split; [exact R|]. split; [exact E1|]. split; [exact P1|]. split; [reflexivity|].
  split; [constructor; [reflexivity|constructor]|]. split; [exact E2|]. split; [exact P3|reflexivity].
Qed.

(** * Ordinary histories *)
Definition pending_tx (st : app) : bool := match pending st with Some (RTx (TDeploy _)) => true | _ => false end.
Definition plain_check (st : app) (tr : list entry) : bool :=
  pending_tx st && list_eqb (sent tr) deploy_bytes
  && forallb (fun x => negb (seen_with SA.address x) && negb (seen_with (fun bs => SA.chunk bs && (SA.ins bs =? 4)) x)
                       && (negb (seen_with SA.initial x) || match snd x with Status [] sw => sw =? SA.ok | _ => false end)) tr.
Lemma plain_history : exists s tr1 st v pre, device_ok dev /\
  reach dev s (tr1 ++ [(Approve true, st, Signed (casper 0) pre)]) /\ pending st = Some (RTx (TDeploy v)) /\
  sent tr1 = deploy_bytes /\ no_wasm_chunks tr1 /\
  Forall (fun x => seen_with SA.address x = false) tr1 /\
  Forall (fun x => seen_with SA.initial x = true -> snd x = Status [] SA.ok) tr1.
Proof.
  assert (F : Forall event_ok plain_run) by (apply events_ok_ok; vm_compute; reflexivity).
  assert (H : exists pre, verdict plain_check plain_run = Some (casper 0, pre, true)) by (eexists; vm_compute; reflexivity).
  destruct H as (pre & H). destruct (verdict_ok _ _ _ _ _ F H) as (s & tr1 & st & R & E). clear H.
  unfold plain_check in E. bools. rename H into P, H1 into S1, H0 into All.
  unfold pending_tx in P. destruct (pending st) as [[[v|v]| | |]|] eqn:Pe; try discriminate P.
  exists s, tr1, st, v, pre. split; [exact dev_ok|]. split; [exact R|]. split; [exact Pe|].
  split; [apply list_eqb_eq; exact S1|].
  rewrite forallb_forall in All. split; [|split]; apply Forall_forall; intros x I; specialize (All x I); bools.
  - match goal with X : negb (seen_with (fun bs => _) x) = true |- _ => revert X; destruct (seen_with (fun bs => _) x); [discriminate|reflexivity] end.
  - match goal with X : negb (seen_with SA.address x) = true |- _ => revert X; destruct (seen_with SA.address x); [discriminate|reflexivity] end.
  - intros X. rewrite X in *. cbn [negb orb] in *. destruct (snd x) as [[|] sw| |]; try discriminate. f_equal. lia.
Qed.

Lemma v1_history : exists s tr1 st v pre it, device_ok dev /\
  reach dev s (tr1 ++ [(Approve true, st, Signed (casper 0) pre)]) /\ pending st = Some (RTx (TV1 v)) /\
  review_item dev st (RTx (TV1 v)) 40 0 = Ret it.
Proof.
  assert (F : Forall event_ok v1_run) by (apply events_ok_ok; vm_compute; reflexivity).
  assert (H : exists pre it, verdict (fun st _ => match pending st with Some (RTx (TV1 v)) => review_item dev st (RTx (TV1 v)) 40 0 | _ => Fail 0 end) v1_run
     = Some (casper 0, pre, Ret it)) by (do 2 eexists; vm_compute; reflexivity).
  destruct H as (pre & it & H). destruct (verdict_ok _ _ _ _ _ F H) as (s & tr1 & st & R & E). clear H.
  destruct (pending st) as [[[v|v]| | |]|] eqn:Pe; try discriminate E.
  exists s, tr1, st, v, pre, it. split; [exact dev_ok|]. split; [exact R|]. split; [exact Pe | exact E].
Qed.

Lemma message_history : exists s tr1 st, device_ok dev /\
  reach dev s (tr1 ++ [(Approve true, st, Signed (casper 0) hello)]) /\ pending st = Some RMsg /\ deploys_only tr1 /\ no_wasm_chunks tr1.
Proof.
  assert (F : Forall event_ok message_run) by (apply events_ok_ok; vm_compute; reflexivity).
  pose (ck := fun (x : entry) => match x with (Apdu bs _, _, _) => negb (is_submission bs) && negb (SA.ins bs =? 4) | _ => true end).
  assert (H : verdict (fun st tr => (pending st, forallb ck tr)) message_run = Some (casper 0, hello, (Some RMsg, true))) by (vm_compute; reflexivity).
  destruct (verdict_ok _ _ _ _ _ F H) as (s & tr1 & st & R & E). clear H. injection E as E1 E2.
  exists s, tr1, st. split; [exact dev_ok|]. split; [exact R|]. split; [exact E1|]. rewrite forallb_forall in E2. split.
  - intros tr0 bs st0 rp tr' -> _ X. specialize (E2 (Apdu bs true, st0, rp) ltac:(apply in_or_app; right; left; reflexivity)).
    unfold ck in E2. rewrite X in E2. discriminate E2.
  - apply Forall_forall. intros [[e t] rp] I. specialize (E2 _ I). unfold seen_with, seen. destruct e as [bs [] | | |]; try reflexivity.
    destruct (pending t); [reflexivity|]. unfold ck in E2. bools. destruct (SA.ins bs =? 4); [discriminate|]. apply andb_false_r.
Qed.

Lemma wasm_history : exists s tr1 st pre, device_ok dev /\
  reach dev s (tr1 ++ [(Approve true, st, Signed (casper 0) pre)]) /\ pending st = Some RWasm /\ wasm_only tr1.
Proof.
  assert (F : Forall event_ok wasm_run) by (apply events_ok_ok; vm_compute; reflexivity).
  pose (ck := fun (x : entry) => negb (seen_with (fun bs => SA.signing bs && negb (SA.ins bs =? 4)) x)
     && (negb (seen_with SA.initial x) || match snd x with Status [] sw => sw =? SA.ok | _ => false end)).
  assert (H : exists pre, verdict (fun st tr => (pending st, forallb ck tr)) wasm_run = Some (casper 0, pre, (Some RWasm, true))) by (eexists; vm_compute; reflexivity).
  destruct H as (pre & H). destruct (verdict_ok _ _ _ _ _ F H) as (s & tr1 & st & R & E). clear H. injection E as E1 E2.
  exists s, tr1, st, pre. split; [exact dev_ok|]. split; [exact R|]. split; [exact E1|]. rewrite forallb_forall in E2.
  split; apply Forall_forall; intros x I; specialize (E2 x I); unfold ck in E2; bools.
  - match goal with X : negb (seen_with (fun bs => _) x) = true |- _ => revert X; destruct (seen_with (fun bs => _) x); [discriminate|reflexivity] end.
  - intros X. rewrite X in *. cbn [negb orb] in *. destruct (snd x) as [[|] sw| |]; try discriminate. f_equal. lia.
Qed.

Definition address_run : list event := [apdu 1 1 (words5 (casper 3))].
Lemma address_history : exists s tr, device_ok dev /\ keys_ok dev /\ reach dev s tr /\ pending s = Some RAddr.
Proof.
  assert (F : Forall event_ok address_run) by (apply events_ok_ok; vm_compute; reflexivity).
  assert (H : ended (fun s _ => pending s) address_run = Some (Some RAddr)) by (vm_compute; reflexivity).
  destruct (ended_ok _ _ _ F H) as (s & tr & R & E). exists s, tr. split; [exact dev_ok|]. split; [exact dev_keys|]. auto.
Qed.
Lemma address_case : exists bs s' ans, SA.address bs = true /\ SA.p1 bs = 0 /\ pending (boot dev) = None /\
  step dev (boot dev) (Apdu bs true) = Ret (s', Status ans SA.ok).
Proof.
  exists ([17; 1; 0; 0; 20] ++ words5 (casper 3)). do 2 eexists. split; [reflexivity|]. split; [reflexivity|]. split; [reflexivity|].
  vm_compute. reflexivity.
Qed.
(** two deploys in a row; between the two, a chunk without initial chunk is refused *)
Definition two_run : list event := plain_run ++ [apdu 2 1 [1; 2; 3]] ++ plain_run.
Definition sigs (tr : list entry) : Z := zlen (filter (fun x : entry => match snd x with Signed _ _ => true | _ => false end) tr).
Lemma two_history : exists s tr, reach dev s tr /\ sigs tr = 2 /\ Exists (fun x => snd x = Status [] SA.no_session) tr.
Proof.
  assert (F : Forall event_ok two_run) by (apply events_ok_ok; vm_compute; reflexivity).
  assert (H : ended (fun _ tr => (sigs tr, existsb (fun x => match snd x with Status [] sw => sw =? SA.no_session | _ => false end) tr)) two_run = Some (2, true))
    by (vm_compute; reflexivity).
  destruct (ended_ok _ _ _ F H) as (s & tr & R & E). clear H. injection E as E1 E2. exists s, tr. split; [exact R|]. split; [exact E1|].
  apply Exists_exists. apply existsb_exists in E2. destruct E2 as (x & I & X). exists x. split; [exact I|].
  destruct (snd x) as [[|] sw| |]; try discriminate X. f_equal. lia.
Qed.
(** more than fits *)
Definition long_run : list event := start 2 (casper 0) :: map (apdu 2 1) (repeat (repeat 5 200) 4).
Lemma long_history : exists s tr, reach dev s tr /\ Exists (fun x => snd x = Status [] SA.too_long) tr.
Proof.
  assert (F : Forall event_ok long_run) by (apply events_ok_ok; vm_compute; reflexivity).
  assert (H : ended (fun _ tr => existsb (fun x => match snd x with Status [] sw => sw =? SA.too_long | _ => false end) tr) long_run = Some true)
    by (vm_compute; reflexivity).
  destruct (ended_ok _ _ _ F H) as (s & tr & R & E2). clear H. exists s, tr. split; [exact R|].
  apply Exists_exists. apply existsb_exists in E2. destruct E2 as (x & I & X). exists x. split; [exact I|].
  destruct (snd x) as [[|] sw| |]; try discriminate X. f_equal. lia.
Qed.
