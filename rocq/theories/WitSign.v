(** Histories in which a TransactionV1 is signed. *)
From Verif Require Import Base Zxlib Crypto Utils RuntimeArg Deploy DeployUI TxV1 TxV1UI Parser App BaseFacts Spec SpecText SpecDeploy SpecTx SpecLayout SpecRaw SpecForm SpecShow SpecApp SpecSess Exec Demo Shows ReviewFacts WitDeploy WitTx TxShow TxReview FormFacts FormReview FormAccept AppFacts AppHist AppClaims AppSign SessFacts SessTx WitApp WitSess WitForm WitShow WitExact WitLook WitRaw WitMore FormArgs FormSign RawShow DeploySign.
Import S SX SL SR SF SW.

Definition roomy_dev : device := mkDevice demo 300 2000 (fun p => Some (2 :: repeat 7 32)) (fun _ => str "m/44'/506'/0'/0/0") [0] (fun _ => mkHeader 0 0 0) (fun _ => 0).
Lemma roomy_ok : device_ok roomy_dev.
Proof. constructor; cbn; try lia. exact demo_hash32. Qed.

(** Three chunks of 200 bytes and the rest. *)
Definition three (data : list Z) : list (list Z) := [firstn 200 data; firstn 200 (skipn 200 data); firstn 200 (skipn 400 data)].
Lemma three_whole data : List.concat (three data) ++ skipn 600 data = data.
Proof.
  assert (Sk : forall a b (l : list Z), skipn a (skipn b l) = skipn (a + b) l).
  { intros a b. induction b as [|b IH]; intros l; [rewrite Nat.add_0_r; reflexivity|]. rewrite Nat.add_succ_r. destruct l; [rewrite !skipn_nil; reflexivity|]. apply IH. }
  unfold three. cbn [List.concat]. rewrite app_nil_r, <- !app_assoc. change 600%nat with (200 + 400)%nat. rewrite <- Sk, firstn_skipn. change 400%nat with (200 + 200)%nat. rewrite <- Sk, !firstn_skipn. reflexivity.
Qed.
Lemma cmd_bytes i k c : 0 <= i < 256 -> 0 <= k < 256 -> bytes c -> zlen c < 256 -> bytes (SS.cmd i k c).
Proof. intros I K B L. unfold SS.cmd. apply bytes_app. split; [|exact B]. pose proof (zlen_nonneg c). change (@S.len Z) with (@zlen Z). repeat constructor; unfold byte; lia. Qed.
Lemma part_ok n m (data : list Z) : bytes data -> bytes (firstn n (skipn m data)).
Proof.
  intros B. rewrite <- (firstn_skipn m data) in B. apply bytes_app in B. destruct B as [_ B]. rewrite <- (firstn_skipn n (skipn m data)) in B. apply bytes_app in B. apply B.
Qed.
Lemma signing_history x data t : bytes data -> zlen data < 850 -> tx_parse demo x data = Ret t ->
  exists s tr1 st h, reach roomy_dev s (tr1 ++ [(Approve true, st, Signed (casper 0) h)]) /\ pending st = Some (RTx t) /\ tx_data (bufs st) = data /\ expert_mode st = x.
Proof.
  intros B L T. set (d := roomy_dev).
  assert (R0 : exists s, reach d s [(Expert x, boot d, NoReply)] /\ pending s = None /\ expert_mode s = x).
  { eexists. split; [exact (reach_step _ _ _ (Expert x) _ _ (reach_boot d) Logic.I eq_refl)|]. split; reflexivity. }
  destruct R0 as (s & R & P & Ex). destruct way_ok as (W1 & W2 & W3).
  assert (Tt : tx_parse (plat d) (expert_mode s) (List.concat (three data) ++ skipn 600 data) = Ret t) by (rewrite three_whole, Ex; exact T).
  assert (Lt : zlen (List.concat (three data) ++ skipn 600 data) <= flash_size d) by (rewrite three_whole; cbn; lia).
  assert (Bt : bytes (List.concat (three data) ++ skipn 600 data)) by (rewrite three_whole; exact B).
  destruct (tx_session d s way (three data) (skipn 600 data) t roomy_ok (reach_buf _ _ _ roomy_ok R) P W1 W3 Lt Tt) as (s' & st & s1 & tr & Rn & _ & E' & Ed & _ & Es).
  destruct (tx_signed d s _ way (three data) (skipn 600 data) t roomy_ok R P W1 W3 Bt Lt Tt) as (s2 & st2 & tr2 & h & s3 & Rn2 & _ & P2 & _ & _ & St & _).
  rewrite Rn in Rn2. injection Rn2 as <- _. destruct (tpe d s1) as (_ & _ & _ & A4 & _ & A6 & _).
  assert (F : Forall event_ok (sends 2 way (three data) (skipn 600 data))).
  { unfold sends, SS.session, three. cbn [map Datatypes.app]. assert (Z3 : forall n m, (n <= 255)%nat -> zlen (firstn n (skipn m data)) < 256) by (intros n m Hn; unfold zlen; rewrite firstn_length; lia).
    constructor; [|constructor; [|constructor; [|constructor; [|constructor; [|constructor]]]]]; cbn [event_ok]; apply cmd_bytes; try lia.
    - apply bytesb_ok. vm_compute. reflexivity.
    - vm_compute. reflexivity.
    - exact (part_ok 200 0 data B).
    - exact (Z3 200%nat 0%nat ltac:(lia)).
    - apply part_ok. exact B.
    - apply Z3; lia.
    - apply part_ok. exact B.
    - apply Z3; lia.
    - rewrite <- (firstn_all (skipn 600 data)). apply part_ok. exact B.
    - unfold zlen in *. rewrite skipn_length. lia. }
  assert (R' : reach d s' ([(Expert x, boot d, NoReply)] ++ tr ++ [(Apdu (SS.cmd 2 2 (skipn 600 data)) true, st, NoReply)])).
  { destruct R as (es & Fe & Re). exists (es ++ sends 2 way (three data) (skipn 600 data)). split; [apply Forall_app; auto|]. apply run_app. eexists s, _, _. split; [exact Re|]. split; [exact Rn|reflexivity]. }
  pose proof (reach_step _ _ _ (Approve true) _ _ R' Logic.I St) as R3. rewrite W2 in R3. eexists _, _, s', h. split; [exact R3|].
  split; [exact P2|]. rewrite E'. cbn [set_pending bufs expert_mode]. rewrite A4, A6, Ed, Es, three_whole. auto.
Qed.

(** The native operations signed with one approval, and with two. *)
Lemma signed_case (x : bool) (n : native) : exists d s tr1 e st p pre tr2 v data k u s' tr1' e' st' p' tr2' v' data' k' u' t lines,
  device_ok d /\ reach d s (tr1 ++ (e, st, Signed p pre) :: tr2) /\ pending st = Some (RTx (TV1 v)) /\ flash_size d <= 65472 /\ tx_data (bufs st) = 1 :: data /\ begins data k u /\
  reach d s' (tr1' ++ (e', st', Signed p' pre) :: tr2') /\ pending st' = Some (RTx (TV1 v')) /\ tx_data (bufs st') = 1 :: data' /\ begins data' k' u' /\
  expert_mode st = x /\ expert_mode st' = x /\ SL.no_leap data /\ f_entry u = Op n /\ data <> data' /\
  inside k u /\ depicts k u data t /\ presentable t /\ review (p_hash (plat d)) x t = Some lines /\
  xexpert_ok x (p_time (plat d)) (x_payload t) /\ args_pos k u < 256 /\ args_pos k' u' < 256 /\ zlen (f_approvals u') < 256.
Proof.
  set (u := native_form n). set (u' := twice n). set (k := right_numbers 3 u). set (k' := right_numbers 3 u').
  set (data := native_data u). set (data' := native_data u' ++ [7]).
  assert (R : exists lines, review (p_hash demo) x (native_seen u n) = Some lines) by (apply is_some_ok; destruct x, n; vm_compute; reflexivity).
  destruct R as (lines & R).
  assert (T : exists v, tx_parse demo x (1 :: data) = Ret v) by (apply taken_ok; destruct x, n; vm_compute; reflexivity). destruct T as (v & T).
  assert (T' : exists v, tx_parse demo x (1 :: data') = Ret v) by (apply taken_ok; destruct x, n; vm_compute; reflexivity). destruct T' as (v' & T').
  assert (B : bytes (1 :: data)) by (apply bytesb_ok; destruct n; vm_compute; reflexivity). assert (B' : bytes (1 :: data')) by (apply bytesb_ok; destruct n; vm_compute; reflexivity).
  assert (L : zlen (1 :: data) < 850) by (destruct n; vm_compute; reflexivity). assert (L' : zlen (1 :: data') < 850) by (destruct n; vm_compute; reflexivity).
  destruct (signing_history x _ _ B L T) as (s & tr & st & h & Rc & P & Ed & Ex). destruct (signing_history x _ _ B' L' T') as (s' & tr' & st' & h' & Rc' & P' & Ed' & Ex').
  assert (F : form_ok u').
  { pose proof (native_form_ok n) as [H1 H2 H3 H4 H5 H6 H7 H8 H9]. constructor; auto. cbn [u' twice re_signed f_approvals]. cbn [native_form native_of f_approvals] in H9. inversion H9; subst. auto. }
  assert (Bg : begins data k u) by apply native_begins.
  assert (Bg' : begins data' k' u') by (apply begins_of; [exact F|apply right_ok; [unfold SL.word; lia|destruct n; vm_compute; reflexivity]]).
  destruct (parse_of_tx _ _ _ _ T ltac:(lia)) as (c & r & Ec & _ & _ & Kt). injection Ec as <- _. destruct v as [v|v]; [discriminate Kt|].
  destruct (parse_of_tx _ _ _ _ T' ltac:(lia)) as (c & r' & Ec & _ & _ & Kt'). injection Ec as <- _. destruct v' as [v'|v']; [discriminate Kt'|].
  assert (Fl : flash_size roomy_dev <= 65472) by (vm_compute; discriminate).
  destruct (signed_form _ _ _ _ _ _ _ _ _ roomy_ok Rc P data k u Fl Ed Bg) as [E1 _]. destruct (signed_form _ _ _ _ _ _ _ _ _ roomy_ok Rc' P' data' k' u' Fl Ed' Bg') as [E1' _].
  assert (E : h' = h) by (rewrite E1, E1'; reflexivity). rewrite E in Rc'.
  exists roomy_dev, s, tr, (Approve true), st, (casper 0), h, [], v, data, k, u, s', tr', (Approve true), st', (casper 0), [], v', data', k', u', (native_seen u n), lines.
  split; [exact roomy_ok|]. split; [exact Rc|]. split; [exact P|]. split; [exact Fl|]. split; [exact Ed|]. split; [exact Bg|].
  split; [exact Rc'|]. split; [exact P'|]. split; [exact Ed'|]. split; [exact Bg'|]. split; [exact Ex|]. split; [exact Ex'|].
  split; [apply no_ff_leap; destruct n; vm_compute; reflexivity|]. split; [reflexivity|]. split; [intros Q; assert (Z1 : zlen data = zlen data') by (rewrite Q; reflexivity); destruct n; vm_compute in Z1; discriminate Z1|].
  split; [exact Logic.I|]. split; [apply native_depicts; eexists; reflexivity|]. split; [apply native_presentable; reflexivity|]. split; [exact R|]. split; [apply v1_expert; reflexivity|].
  split; [destruct n; vm_compute; reflexivity|]. split; [destruct n; vm_compute; reflexivity|reflexivity].
Qed.

(** A transfer signed before 77 approvals, and before five. *)
Lemma deploys_case (x : bool) : exists d s tr1 e st q pre tr2 v s' tr1' e' st' q' tr2' v' data' h p i r n sl n' r',
  device_ok d /\ reach d s (tr1 ++ (e, st, Signed q pre) :: tr2) /\ pending st = Some (RTx (TDeploy v)) /\ tx_data (bufs st) = 0 :: signed_deploy (p_hash (plat d)) h p i ++ r /\
  reach d s' (tr1' ++ (e', st', Signed q' pre) :: tr2') /\ pending st' = Some (RTx (TDeploy v')) /\ tx_data (bufs st') = 0 :: data' /\
  expert_mode st = x /\ expert_mode st' = x /\ n <> n' /\
  SD.good_header h /\ len (SD.p_amount p) <= 64 /\ SD.good_session i /\ SD.h_bodyhash h = p_hash (plat d) (SD.enc_payment p ++ SD.enc_session i) /\ trailing x i n r /\
  SD.session_review (p_hash (plat d)) x i = Some sl /\ expert_ok x (p_time (plat d)) h /\ data' = signed_deploy (p_hash (plat d)) h p i ++ r' /\ trailing x i n' r'.
Proof.
  destruct (trailing_case x) as (sl & Hh & G & Pa & Gs & Hb & Tr & Rv & EX & _). set (h := SD.d_header d_transfer) in *. set (p := SD.d_payment d_transfer) in *. set (i := SD.d_session d_transfer) in *.
  set (data := signed_deploy (p_hash demo) h p i ++ odd_tail). set (data' := signed_deploy (p_hash demo) h p i ++ le 4 5).
  assert (T : exists v, tx_parse demo x (0 :: data) = Ret v) by (apply taken_ok; destruct x; vm_compute; reflexivity). destruct T as (v & T).
  assert (T' : exists v, tx_parse demo x (0 :: data') = Ret v) by (apply taken_ok; destruct x; vm_compute; reflexivity). destruct T' as (v' & T').
  assert (B : bytes (0 :: data)) by (apply bytesb_ok; vm_compute; reflexivity). assert (B' : bytes (0 :: data')) by (apply bytesb_ok; vm_compute; reflexivity).
  assert (L : zlen (0 :: data) < 850) by (vm_compute; reflexivity). assert (L' : zlen (0 :: data') < 850) by (vm_compute; reflexivity).
  destruct (signing_history x _ _ B L T) as (s & tr & st & h1 & Rc & P & Ed & Ex). destruct (signing_history x _ _ B' L' T') as (s' & tr' & st' & h2 & Rc' & P' & Ed' & Ex').
  destruct (parse_of_tx _ _ _ _ T ltac:(lia)) as (c & r & Ec & _ & _ & Kt). assert (c = 0) by congruence. subst c. destruct v as [v|v]; [|discriminate Kt].
  destruct (parse_of_tx _ _ _ _ T' ltac:(lia)) as (c & r' & Ec' & _ & _ & Kt'). assert (c = 0) by congruence. subst c. destruct v' as [v'|v']; [|discriminate Kt'].
  assert (Tr' : trailing x i 5 (le 4 5)).
  { constructor; [unfold SL.word; lia|intros _; exists []; reflexivity|]. intros w l E. discriminate E. }
  destruct (deploy_screen _ _ _ _ _ _ _ _ _ roomy_ok Rc P h p i odd_tail 77 sl Ed G Pa Gs Hb) as [E1 _]; try (rewrite Ex); auto.
  destruct (deploy_screen _ _ _ _ _ _ _ _ _ roomy_ok Rc' P' h p i (le 4 5) 5 sl Ed' G Pa Gs Hb) as [E1' _]; try (rewrite Ex'); auto.
  assert (E : h2 = h1) by congruence. rewrite E in Rc'.
  exists roomy_dev, s, tr, (Approve true), st, (casper 0), h1, [], v, s', tr', (Approve true), st', (casper 0), [], v', data', h, p, i, odd_tail, 77, sl, 5, (le 4 5).
  split; [exact roomy_ok|]. split; [exact Rc|]. split; [exact P|]. split; [exact Ed|]. split; [exact Rc'|]. split; [exact P'|]. split; [exact Ed'|]. split; [exact Ex|]. split; [exact Ex'|].
  split; [discriminate|]. split; [exact G|]. split; [exact Pa|]. split; [exact Gs|]. split; [exact Hb|]. split; [exact Tr|]. split; [exact Rv|]. split; [exact EX|]. split; [reflexivity|exact Tr'].
Qed.
