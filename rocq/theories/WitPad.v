(** Witness: one payload and two screens.  Seven entries more in the table at the
    top, which is not signed, move the arguments behind byte 255, and what is
    looked at instead are bytes of this table. *)
From Verif Require Import Base Zxlib Crypto Utils RuntimeArg Deploy DeployUI TxV1 TxV1UI Parser BaseFacts Spec SpecText SpecDeploy SpecTx SpecLayout SpecRaw SpecForm SpecShow SpecWrap Exec Demo Shows ReviewFacts WitDeploy TxShow TxReview WitTx LookFacts WitLook WitRaw BindFacts FormFacts FormReview FormArgs FormAccept WitMore WitForm WitShow WitExact FormSeen App SpecApp AppFacts AppHist SpecHead HeadSeen HeadDeploy WitBind WitApp WitSign WitHead FormSign WitWrap HeadFacts RawFacts TxFacts SeenSign.
Import S SX SL SR SF SW SH SG.

Definition pad_of (h : list Z) : form :=
  Form h bob 1700000000000 1800000 (text "casper") (PPrepaid (repeat 7 32)) (ARaw [1; 2; 3]) (XStored (SD.ByName (text "counter")) VmV1) (Custom (text "mint")) [demo_approved].
Definition pad_num (u : form) : numbers := right_numbers 8 u.
Definition pad_call : form := pad_of (demo_hash (form_payload (pad_num (pad_of (repeat 0 32))) (pad_of (repeat 0 32)))).
Definition retop (t : tbl) (k : numbers) : numbers :=
  Numbers t (n_payload k) (n_initiator k) (n_price k) (n_args k) (n_target k) (n_id k) (n_runtime k) (n_entry k) (n_sched k).
Definition pad_tbl (k : numbers) (u : form) (w : Z) : tbl :=
  Tbl 10 (offsets 0 (top_fields k u) ++ [0; 0; w; 0; 0; 0; 0]) (len (List.concat (top_fields k u))).
Definition padded (w : Z) : numbers := retop (pad_tbl (pad_num pad_call) pad_call w) (pad_num pad_call).
Definition pad_seen (bs : list Z) : transaction :=
  Transaction (f_hash pad_call) (Payload bob 1700000000000 1800000 (text "casper") (Prepaid (repeat 7 32)) (Raw bs) (XStored (SD.ByName (text "counter")) VmV1) (Custom (text "mint")))
    [SD.Approval 1 [] []].
Lemma pad_call_ok : form_ok pad_call.
Proof.
  constructor; cbn [pad_call pad_of f_hash f_initiator f_time f_ttl f_price f_args f_target f_entry f_approvals]; try lia.
  - apply (proj1 (demo_hash32 _)).
  - right. right. split; reflexivity.
  - reflexivity.
  - exact Logic.I.
  - split; exact Logic.I.
  - reflexivity.
  - constructor; [|constructor]. split; [right; left; split; reflexivity|]. split; [left; reflexivity|reflexivity].
Qed.
Lemma pad_payload h h' : form_payload (pad_num (pad_of h)) (pad_of h) = form_payload (pad_num (pad_of h')) (pad_of h').
Proof. reflexivity. Qed.
Lemma pad_hash : f_hash pad_call = p_hash demo (form_payload (pad_num pad_call) pad_call).
Proof. change (p_hash demo) with demo_hash. unfold pad_call at 1. cbn [pad_of f_hash]. apply (f_equal demo_hash). unfold pad_call. apply pad_payload. Qed.
Lemma pad_right : numbers_ok (pad_num pad_call) pad_call.
Proof. apply (right_ok 8 pad_call); vm_compute; try split; congruence. Qed.
Lemma retop_ok t k u : numbers_ok k u -> covers t (top_fields k u) -> numbers_ok (retop t k) u.
Proof.
  intros [] C. constructor; cbn [retop n_top n_payload n_initiator n_price n_args n_target n_id n_runtime n_entry n_sched]; try assumption;
    destruct u as [h a tm tl c p ar tg en aps]; destruct tg; assumption.
Qed.
Lemma pad_covers w : word w -> covers (pad_tbl (pad_num pad_call) pad_call w) (top_fields (pad_num pad_call) pad_call).
Proof.
  intros Ww. destruct (no_top _ _ pad_right) as [[T (more & E)] Sz]. set (k := pad_num pad_call) in *. set (fs := top_fields k pad_call) in *.
  assert (O : t_offs (n_top k) = offsets 0 fs) by reflexivity.
  split.
  - split; [|eexists; reflexivity]. constructor; cbn [pad_tbl t_n t_offs t_size].
    + unfold word. lia.
    + fold fs. rewrite <- O. apply Forall_app. split; [exact (to_offs _ T)|]. repeat (constructor; [unfold word in *; lia|]). constructor.
    + exact (to_size _ T).
    + lia.
    + reflexivity.
  - exact Sz.
Qed.
Lemma pad_ok w : word w -> numbers_ok (padded w) pad_call.
Proof. intros Ww. apply retop_ok; [exact pad_right|apply pad_covers; exact Ww]. Qed.
Definition pad_base : list Z := form_bytes (padded 0) pad_call.
Definition pad_data (w : Z) : list Z := form_bytes (padded w) pad_call.
Lemma pad_split w : pad_data w = firstn 36 pad_base ++ le 4 w ++ skipn 40 pad_base.
Proof. generalize w. clear w. intros w. unfold pad_data, pad_base, form_bytes, under, heading, padded, retop, pad_tbl. cbn [n_top t_n t_offs t_size]. unfold raw_head.
  vm_compute. reflexivity. Qed.
Lemma pad_facts b1 b2 b3 : byte b1 -> byte b2 -> byte b3 -> let w := value [0; b1; b2; b3] in
  bytes (pad_data w) /\ zlen (pad_data w) < 849 /\ begins (pad_data w) (padded w) pad_call /\ args_pos (padded w) pad_call = 293 /\ appears (padded w) pad_call (pad_data w) (pad_seen [b1; b2; b3]).
Proof.
  intros H1 H2 H3 w. assert (Bw : bytes [0; b1; b2; b3]) by (repeat (constructor; [unfold byte in *; lia|]); constructor).
  destruct (le_of _ Bw eq_refl) as [El Wl]. fold w in El, Wl. pose proof (pad_split w) as Sp. rewrite <- El in Sp.
  assert (Lz : zlen (firstn 36 pad_base) = 36) by (vm_compute; reflexivity).
  split.
  { rewrite Sp. unfold bytes. rewrite !Forall_app. split; [apply bytesb_ok; vm_compute; reflexivity|]. split; [exact Bw|apply bytesb_ok; vm_compute; reflexivity]. }
  split; [rewrite Sp, !zlen_app, Lz; vm_compute; reflexivity|].
  split; [unfold pad_data; rewrite <- (app_nil_r (form_bytes _ _)); apply (begins_of (padded w) pad_call []); [exact pad_call_ok|apply pad_ok; exact Wl]|].
  assert (PO : args_pos (padded w) pad_call = 293) by (clearbody w; vm_compute; reflexivity).
  split; [exact PO|].
  constructor; try reflexivity.
  change (f_entry pad_call) with (Custom (text "mint")). exists [b1; b2; b3]. split; [reflexivity|]. unfold seen_bytes, seen_pos. rewrite PO. change (f_args pad_call) with (ARaw [1; 2; 3]). split; [|reflexivity].
  exists (firstn 36 pad_base ++ [0]), (skipn 40 pad_base). rewrite Sp, <- !app_assoc. split; [reflexivity|]. change (@S.len Z) with (@zlen Z). rewrite zlen_app, Lz. reflexivity.
Qed.
Definition pad_plain : list Z := form_bytes (pad_num pad_call) pad_call.
Lemma plain_facts : bytes pad_plain /\ zlen pad_plain < 849 /\ begins pad_plain (pad_num pad_call) pad_call /\ exact_numbers (pad_num pad_call) pad_call /\ args_pos (pad_num pad_call) pad_call = 251 /\
  appears (pad_num pad_call) pad_call pad_plain (pad_seen [1; 2; 3]).
Proof.
  split; [apply bytesb_ok; vm_compute; reflexivity|]. split; [vm_compute; reflexivity|].
  split; [unfold pad_plain; rewrite <- (app_nil_r (form_bytes _ _)); exact (begins_of _ pad_call [] pad_call_ok pad_right)|].
  split; [exact (right_exact pad_call)|]. assert (PO : args_pos (pad_num pad_call) pad_call = 251) by (vm_compute; reflexivity). split; [exact PO|].
  constructor; try reflexivity.
  change (f_entry pad_call) with (Custom (text "mint")). exists [1; 2; 3]. split; [reflexivity|]. unfold seen_bytes, seen_pos. rewrite PO. change (f_args pad_call) with (ARaw [1; 2; 3]). split; [|reflexivity].
  exists (firstn 251 pad_plain), (skipn 254 pad_plain). split; vm_compute; reflexivity.
Qed.
Lemma pad_chain x : chain_shown x (f_chain pad_call).
Proof. split; [left; vm_compute; reflexivity|intros _; vm_compute; reflexivity]. Qed.
Lemma pad_lines x bs : exists lines, review (p_hash demo) x (pad_seen bs) = Some lines /\ In (xl "Args hash" (SD.Hex (p_hash demo bs))) lines.
Proof.
  change (p_hash demo) with demo_hash. unfold pad_seen. generalize demo_hash (f_hash pad_call). intros H hh. destruct x; eexists; (split; [reflexivity|]); cbn [app In]; repeat (first [left; reflexivity|right]).
Qed.
Lemma pad_history x data k bs : bytes data -> zlen data < 849 -> begins data k pad_call -> f_hash pad_call = p_hash demo (form_payload k pad_call) -> appears k pad_call data (pad_seen bs) ->
  exists s tr1 st v lines, reach roomy_dev s (tr1 ++ (Approve true, st, Signed (casper 0) (f_hash pad_call)) :: []) /\ pending st = Some (RTx (TV1 v)) /\ tx_data (bufs st) = 1 :: data /\ expert_mode st = x /\
    FormSign.on_screen roomy_dev st (RTx (TV1 v)) lines /\ In (xl "Args hash" (SD.Hex (p_hash demo bs))) lines.
Proof.
  intros B L Bg Hh Ap. destruct (pad_lines x bs) as (lines & R & Il).
  assert (X : xexpert_ok x (p_time demo) (x_payload (pad_seen bs))) by (apply v1_expert; reflexivity).
  assert (AC : acceptable (x_payload (pad_seen bs)) = true) by reflexivity.
  destruct (seen_yes demo x data k pad_call (pad_seen bs) demo_hash32 B ltac:(lia) Bg Ap lines Hh AC (pad_chain x) (or_introl R) X) as (v & Tv & _).
  destruct v as [dd|v].
  { destruct (accept_inv demo x 1 data _ ltac:(lia) Tv) as (_ & o1 & o2 & its & o3 & q & C & _). apply content_deploy in C. destruct C as [C _]. discriminate C. }
  destruct (signing_history x (1 :: data) _ ltac:(apply Forall_cons; [unfold byte; lia|exact B]) ltac:(rewrite zlen_cons; lia) Tv) as (s & tr1 & st & h & Re & Pe & Ed & Ex).
  destruct (signed_seen _ _ _ _ _ _ _ _ _ roomy_ok Re Pe ltac:(cbn; lia)) as (data' & Ed' & K). rewrite Ed in Ed'. injection Ed' as <-.
  destruct (K k pad_call Bg) as (-> & _ & _ & Sh). rewrite Ex in Sh.
  destruct (Sh (pad_seen bs) lines Ap (pad_chain x) (or_introl R) X) as (_ & Cn & It).
  exists s, tr1, st, v, lines. split; [exact Re|]. split; [exact Pe|]. split; [exact Ed|]. split; [exact Ex|]. split; [split; [exact Cn|intros i l Hi kl; exact (It i l kl Hi)]|exact Il].
Qed.
Lemma pad_signed (x : bool) b1 b2 b3 : byte b1 -> byte b2 -> byte b3 ->
  exists d pre u s tr1 e st q tr2 v data k lines s' tr1' e' st' q' tr2' v' data' k' lines', device_ok d /\ flash_size d <= 65472 /\
  reach d s (tr1 ++ (e, st, Signed q pre) :: tr2) /\ pending st = Some (RTx (TV1 v)) /\ tx_data (bufs st) = 1 :: data /\ expert_mode st = x /\ begins data k u /\
  reach d s' (tr1' ++ (e', st', Signed q' pre) :: tr2') /\ pending st' = Some (RTx (TV1 v')) /\ tx_data (bufs st') = 1 :: data' /\ expert_mode st' = x /\ begins data' k' u /\
  exact_numbers k u /\ strict u /\ form_payload k' u = form_payload k u /\ f_args u = ARaw [1; 2; 3] /\
  FormSign.on_screen d st (RTx (TV1 v)) lines /\ In (xl "Args hash" (SD.Hex (p_hash (plat d) [1; 2; 3]))) lines /\
  FormSign.on_screen d st' (RTx (TV1 v')) lines' /\ In (xl "Args hash" (SD.Hex (p_hash (plat d) [b1; b2; b3]))) lines'.
Proof.
  intros H1 H2 H3. destruct (pad_facts b1 b2 b3 H1 H2 H3) as (B' & L' & Bg' & _ & Ap'). set (w := value [0; b1; b2; b3]) in *. clearbody w.
  destruct plain_facts as (B & L & Bg & EN & _ & Ap).
  assert (EP : form_payload (padded w) pad_call = form_payload (pad_num pad_call) pad_call) by reflexivity.
  destruct (pad_history x pad_plain _ [1; 2; 3] B L Bg pad_hash Ap) as (s & tr1 & st & v & lines & R & P & Ed & Ex & On & Il).
  destruct (pad_history x (pad_data w) _ [b1; b2; b3] B' L' Bg' ltac:(rewrite EP; exact pad_hash) Ap') as (s' & tr1' & st' & v' & lines' & R' & P' & Ed' & Ex' & On' & Il').
  exists roomy_dev, (f_hash pad_call), pad_call, s, tr1, (Approve true), st, (casper 0), [], v, pad_plain, (pad_num pad_call), lines, s', tr1', (Approve true), st', (casper 0), [], v', (pad_data w), (padded w), lines'.
  split; [exact roomy_ok|]. split; [cbn; lia|]. repeat (split; [assumption|]).
  split; [constructor; cbn; try lia; auto|]. split; [exact EP|]. split; [reflexivity|]. split; [exact On|]. split; [exact Il|]. split; [exact On'|exact Il'].
Qed.

(** ** A transfer with the arguments in its chain name, under two tables *)
Lemma wrap_two_by (b : bool) : exists d pre s tr1 e st q tr2 v data k u s' tr1' e' st' q' tr2' v' data' k' t lines, device_ok d /\
  reach d s (tr1 ++ (e, st, Signed q pre) :: tr2) /\ pending st = Some (RTx (TV1 v)) /\ flash_size d <= 65472 /\ tx_data (bufs st) = 1 :: data /\ begins data k u /\
  reach d s' (tr1' ++ (e', st', Signed q' pre) :: tr2') /\ pending st' = Some (RTx (TV1 v')) /\ tx_data (bufs st') = 1 :: data' /\ begins data' k' u /\
  expert_mode st = expert_mode st' /\ n_top k <> n_top k' /\ 256 <= args_pos k u /\ f_entry u = Op NTransfer /\
  within k u t /\ appears k u data t /\ chain_shown (expert_mode st) (f_chain u) /\ review (p_hash (plat d)) (expert_mode st) t = Some lines /\
  xexpert_ok (expert_mode st) (p_time (plat d)) (x_payload t) /\ args_pos k' u / 256 = args_pos k u / 256 /\
  (if b then True else S.len (t_offs (n_top k')) = S.len (t_offs (n_top k))) /\ form_payload k u = form_payload k' u.
Proof.
  destruct (wrap_facts [arg_id; arg_target; arg_amount] [arg_id; arg_thief; arg_amount]) as (B & L & Bg & EN & En & _ & P & Hh & Ap & Ch); [left; reflexivity|].
  set (t := wrap_seen [arg_id; arg_target; arg_amount] [arg_id; arg_thief; arg_amount]) in *. set (u := wrapped [arg_id; arg_target; arg_amount] [arg_id; arg_thief; arg_amount]) in *.
  set (k := wrap_num u) in *. set (data := wrap_data u) in *.
  set (tb := Tbl (if b then 4 else 259) (offsets 0 (top_fields k u) ++ if b then [5] else []) (len (List.concat (top_fields k u)))).
  assert (Cv : covers tb (top_fields k u)).
  { destruct Bg as (_ & N & _). destruct (no_top _ _ N) as [[T _] Sz]. split; [|exact Sz]. split; [|eexists; reflexivity]. constructor; cbn [tb t_n t_offs t_size].
    - unfold word. destruct b; lia.
    - apply Forall_app. split; [exact (to_offs _ T)|]. destruct b; repeat constructor; unfold word; lia.
    - exact (to_size _ T).
    - destruct b; cbn; lia.
    - destruct b; reflexivity. }
  set (k' := retop tb k). set (data' := form_bytes k' u).
  assert (Bg' : begins data' k' u).
  { unfold data'. rewrite <- (app_nil_r (form_bytes _ _)). apply (begins_of k' u []); [exact (proj1 Bg)|]. apply retop_ok; [exact (proj1 (proj2 Bg))|exact Cv]. }
  assert (B' : bytes data') by (apply bytesb_ok; destruct b; vm_compute; reflexivity).
  assert (L1 : zlen data < 849) by (vm_compute; reflexivity). assert (L1' : zlen data' < 849) by (destruct b; vm_compute; reflexivity).
  assert (EP : form_payload k u = form_payload k' u) by reflexivity.
  assert (R : exists lines, review (p_hash demo) false t = Some lines) by (apply is_some_ok; vm_compute; reflexivity).
  destruct R as (lines & R). assert (AC : acceptable (x_payload t) = true) by (vm_compute; reflexivity).
  assert (Wi : within k u t) by (split; vm_compute; congruence).
  assert (X : xexpert_ok false (p_time demo) (x_payload t)) by (intros E; discriminate E).
  assert (Q : args_pos k' u / 256 = args_pos k u / 256) by (destruct b; vm_compute; reflexivity).
  assert (Et : if b then True else S.len (t_offs (n_top k')) = S.len (t_offs (n_top k))) by (destruct b; vm_compute; auto).
  assert (NT : n_top k <> n_top k') by (intros E; apply (f_equal t_n) in E; destruct b; discriminate E).
  clearbody data'. clearbody k'. clear Cv. clearbody tb. clearbody data t. clearbody k. clearbody u.
  destruct (seen_yes demo false data k u t demo_hash32 B L Bg Ap lines Hh AC Ch (or_introl R) X) as (v & Tv & _).
  destruct (outside_seen demo false data data' k u k' u t lines demo_hash32 B B' L ltac:(lia) Bg Bg' EP eq_refl Wi Ap Ch (or_introl R) X Q) as (_ & O).
  destruct (O (ex_intro _ _ Tv)) as (_ & _ & (v' & Tv' & _) & _).
  assert (K : forall dt w, zlen dt < 849 -> tx_parse demo false (1 :: dt) = Ret w -> exists w1, w = TV1 w1).
  { intros dt [dd|w] Lw Tw; [|eauto]. destruct (accept_inv demo false 1 dt _ ltac:(lia) Tw) as (_ & o1 & o2 & its & o3 & q & C & _). apply content_deploy in C. destruct C as [C _]. discriminate C. }
  destruct (K _ _ L1 Tv) as (w & ->). destruct (K _ _ L1' Tv') as (w' & ->).
  destruct (signing_history false (1 :: data) _ ltac:(apply Forall_cons; [unfold byte; lia|exact B]) ltac:(rewrite zlen_cons; lia) Tv) as (s & tr1 & st & h & Re & Pe & Ed & Ex).
  destruct (signing_history false (1 :: data') _ ltac:(apply Forall_cons; [unfold byte; lia|exact B']) ltac:(rewrite zlen_cons; lia) Tv') as (s' & tr1' & st' & h' & Re' & Pe' & Ed' & Ex').
  destruct (signed_form _ _ _ _ _ _ _ _ _ roomy_ok Re Pe data k u ltac:(cbn; lia) Ed Bg) as [E1 _]. destruct (signed_form _ _ _ _ _ _ _ _ _ roomy_ok Re' Pe' data' k' u ltac:(cbn; lia) Ed' Bg') as [E1' _].
  subst h h'. exists roomy_dev, (f_hash u), s, tr1, (Approve true), st, (casper 0), [], w, data, k, u, s', tr1', (Approve true), st', (casper 0), [], w', data', k', t, lines.
  rewrite Ex, Ex'. split; [exact roomy_ok|]. split; [exact Re|]. split; [exact Pe|]. split; [cbn; lia|]. split; [exact Ed|]. split; [exact Bg|]. split; [exact Re'|]. split; [exact Pe'|]. split; [exact Ed'|]. split; [exact Bg'|].
  split; [reflexivity|]. split; [exact NT|]. split; [rewrite P; lia|]. split; [exact En|]. split; [exact Wi|]. split; [exact Ap|]. split; [exact Ch|]. split; [exact R|]. split; [exact X|]. split; [exact Q|]. split; [exact Et|exact EP].
Qed.
Lemma wrap_two : exists d pre s tr1 e st q tr2 v data k u s' tr1' e' st' q' tr2' v' data' k' t lines, device_ok d /\
  reach d s (tr1 ++ (e, st, Signed q pre) :: tr2) /\ pending st = Some (RTx (TV1 v)) /\ flash_size d <= 65472 /\ tx_data (bufs st) = 1 :: data /\ begins data k u /\
  reach d s' (tr1' ++ (e', st', Signed q' pre) :: tr2') /\ pending st' = Some (RTx (TV1 v')) /\ tx_data (bufs st') = 1 :: data' /\ begins data' k' u /\
  expert_mode st = expert_mode st' /\ n_top k <> n_top k' /\ 256 <= args_pos k u /\ f_entry u = Op NTransfer /\
  within k u t /\ appears k u data t /\ chain_shown (expert_mode st) (f_chain u) /\ review (p_hash (plat d)) (expert_mode st) t = Some lines /\
  xexpert_ok (expert_mode st) (p_time (plat d)) (x_payload t) /\ args_pos k' u / 256 = args_pos k u / 256.
Proof.
  destruct (wrap_two_by true) as (d & pre & s & tr1 & e & st & q & tr2 & v & data & k & u & s' & tr1' & e' & st' & q' & tr2' & v' & data' & k' & t & lines & H).
  exists d, pre, s, tr1, e, st, q, tr2, v, data, k, u, s', tr1', e', st', q', tr2', v', data', k', t, lines. tauto.
Qed.
Lemma wrap_count : exists d pre s tr1 e st q tr2 v data k u s' tr1' e' st' q' tr2' v' data' k' t lines, device_ok d /\
  reach d s (tr1 ++ (e, st, Signed q pre) :: tr2) /\ pending st = Some (RTx (TV1 v)) /\ flash_size d <= 65472 /\ tx_data (bufs st) = 1 :: data /\ begins data k u /\
  reach d s' (tr1' ++ (e', st', Signed q' pre) :: tr2') /\ pending st' = Some (RTx (TV1 v')) /\ tx_data (bufs st') = 1 :: data' /\ begins data' k' u /\
  expert_mode st = expert_mode st' /\ n_top k <> n_top k' /\ S.len (t_offs (n_top k')) = S.len (t_offs (n_top k)) /\ 256 <= args_pos k u /\ f_entry u = Op NTransfer /\
  within k u t /\ appears k u data t /\ chain_shown (expert_mode st) (f_chain u) /\ review (p_hash (plat d)) (expert_mode st) t = Some lines /\
  xexpert_ok (expert_mode st) (p_time (plat d)) (x_payload t).
Proof.
  destruct (wrap_two_by false) as (d & pre & s & tr1 & e & st & q & tr2 & v & data & k & u & s' & tr1' & e' & st' & q' & tr2' & v' & data' & k' & t & lines & H).
  cbv beta iota in H.
  exists d, pre, s, tr1, e, st, q, tr2, v, data, k, u, s', tr1', e', st', q', tr2', v', data', k', t, lines. tauto.
Qed.

(** ** A transfer that the same table makes unacceptable *)
Definition pay_of (h : list Z) : form :=
  Form h bob 1700000000000 1800000 (text "casper") (PPrepaid (repeat 7 32)) (ANamed (List.map raw_of [arg_id; arg_target; arg_amount])) Native (Op NTransfer) [demo_approved].
Definition pay_call : form := pay_of (demo_hash (form_payload (wrap_num (pay_of (repeat 0 32))) (pay_of (repeat 0 32)))).
Definition pay_tbl (k : numbers) (u : form) : tbl :=
  Tbl 10 (offsets 0 (top_fields k u) ++ [0; 0; 0; 0; 0; 0; 0]) (len (List.concat (top_fields k u))).
Definition pay_num : numbers := wrap_num pay_call.
Definition pay_num' : numbers := retop (pay_tbl pay_num pay_call) pay_num.
Lemma pay_ok h : len h = 32 -> form_ok (pay_of h).
Proof.
  intros Hh. constructor; cbn [pay_of f_hash f_initiator f_time f_ttl f_price f_args f_target f_entry f_approvals]; try lia; auto.
  - right. right. split; reflexivity.
  - reflexivity.
  - cbn [form_args List.map]. repeat (apply Forall_cons; [readably|]); apply Forall_nil.
  - exact Logic.I.
  - constructor; [|constructor]. split; [right; left; split; reflexivity|]. split; [left; reflexivity|reflexivity].
Qed.
Definition is_ret {A} (o : outcome A) : bool := match o with Ret _ => true | _ => false end.
Definition is_fail {A} (o : outcome A) : bool := match o with Fail _ => true | _ => false end.
Lemma is_ret_ok {A} (o : outcome A) : is_ret o = true -> exists v, o = Ret v.
Proof. destruct o; try discriminate; eauto. Qed.
Lemma is_fail_ok {A} (o : outcome A) : is_fail o = true -> exists c, o = Fail c.
Proof. destruct o; try discriminate; eauto. Qed.
Lemma pad_verdict (x : bool) : exists pf data data' k k' u, hash32 (p_hash pf) /\ bytes data /\ bytes data' /\ zlen data' < 849 /\ begins data k u /\ begins data' k' u /\
  exact_numbers k u /\ form_payload k' u = form_payload k u /\ f_args u = ANamed (List.map raw_of [arg_id; arg_target; arg_amount]) /\ f_entry u = Op NTransfer /\
  (exists v, tx_parse pf x (1 :: data) = Ret v) /\ (exists c, tx_parse pf x (1 :: data') = Fail c).
Proof.
  assert (F : form_ok pay_call) by (apply pay_ok; apply (proj1 (demo_hash32 _))).
  assert (N : numbers_ok pay_num pay_call) by (apply (right_ok (len (argument_bytes (f_args pay_call))) pay_call); vm_compute; try split; congruence).
  assert (C : covers (pay_tbl pay_num pay_call) (top_fields pay_num pay_call)).
  { destruct (no_top _ _ N) as [[T _] Sz]. split; [|exact Sz]. split; [|eexists; reflexivity]. constructor; cbn [pay_tbl t_n t_offs t_size].
    - unfold word. lia.
    - apply Forall_app. split; [exact (to_offs _ T)|]. repeat (constructor; [unfold word; lia|]). constructor.
    - exact (to_size _ T).
    - lia.
    - reflexivity. }
  exists demo, (form_bytes pay_num pay_call), (form_bytes pay_num' pay_call), pay_num, pay_num', pay_call.
  split; [exact demo_hash32|]. split; [apply bytesb_ok; vm_compute; reflexivity|]. split; [apply bytesb_ok; vm_compute; reflexivity|]. split; [vm_compute; reflexivity|].
  split; [rewrite <- (app_nil_r (form_bytes _ _)); exact (begins_of _ pay_call [] F N)|].
  split; [rewrite <- (app_nil_r (form_bytes _ _)); exact (begins_of pay_num' pay_call [] F (retop_ok _ _ _ N C))|].
  split; [exact (right_exact pay_call)|]. split; [reflexivity|]. split; [reflexivity|]. split; [reflexivity|].
  split; [apply is_ret_ok|apply is_fail_ok]; destruct x; vm_compute; reflexivity.
Qed.
Lemma wrap_outside_by (b : bool) : exists pf x data data' k u k' t lines, hash32 (p_hash pf) /\ bytes data /\ bytes data' /\ zlen data < 65472 /\ zlen data' < 65472 /\
  begins data k u /\ begins data' k' u /\ form_payload k u = form_payload k' u /\ n_top k <> n_top k' /\ 256 <= args_pos k u /\ within k u t /\
  appears k u data t /\ chain_shown x (f_chain u) /\ review (p_hash pf) x t = Some lines /\ xexpert_ok x (p_time pf) (x_payload t) /\
  args_pos k' u / 256 = args_pos k u / 256 /\ (if b then True else S.len (t_offs (n_top k')) = S.len (t_offs (n_top k))) /\ exists v, tx_parse pf x (1 :: data) = Ret v.
Proof.
  destruct (wrap_two_by b) as (d & pre & s & tr1 & e & st & q & tr2 & v & data & k & u & s' & tr1' & e' & st' & q' & tr2' & v' & data' & k' & t & lines & D & R & P & Fl & Ed & Bg & R' & P' & Ed' & Bg' & Ex & NT & A & _ & Wi & Ap & Ch & Rv & X & Q & Et & EP).
  destruct (signing_data _ _ _ _ _ _ _ _ _ D R P) as (dt & Eq & B & L & T & _). rewrite Ed in Eq. injection Eq as <-.
  destruct (signing_data _ _ _ _ _ _ _ _ _ D R' P') as (dt & Eq & B' & L' & _). rewrite Ed' in Eq. injection Eq as <-.
  exists (plat d), (expert_mode st), data, data', k, u, k', t, lines.
  split; [apply D|]. split; [exact B|]. split; [exact B'|]. split; [lia|]. split; [lia|]. split; [exact Bg|]. split; [exact Bg'|].
  split; [exact EP|]. split; [exact NT|]. split; [exact A|]. split; [exact Wi|]. split; [exact Ap|]. split; [exact Ch|]. split; [exact Rv|]. split; [exact X|]. split; [exact Q|]. split; [exact Et|eauto].
Qed.
Lemma wrap_outside : exists pf x data data' k u k' t lines, hash32 (p_hash pf) /\ bytes data /\ bytes data' /\ zlen data < 65472 /\ zlen data' < 65472 /\
  begins data k u /\ begins data' k' u /\ form_payload k u = form_payload k' u /\ n_top k <> n_top k' /\ 256 <= args_pos k u /\ within k u t /\
  appears k u data t /\ chain_shown x (f_chain u) /\ review (p_hash pf) x t = Some lines /\ xexpert_ok x (p_time pf) (x_payload t) /\
  args_pos k' u / 256 = args_pos k u / 256 /\ exists v, tx_parse pf x (1 :: data) = Ret v.
Proof.
  destruct (wrap_outside_by true) as (pf & x & data & data' & k & u & k' & t & lines & H). cbv beta iota in H.
  exists pf, x, data, data', k, u, k', t, lines. tauto.
Qed.
Lemma wrap_outside_count : exists pf x data data' k u k' t lines, hash32 (p_hash pf) /\ bytes data /\ bytes data' /\ zlen data < 65472 /\ zlen data' < 65472 /\
  begins data k u /\ begins data' k' u /\ form_payload k u = form_payload k' u /\ n_top k <> n_top k' /\ 256 <= args_pos k u /\ within k u t /\
  appears k u data t /\ chain_shown x (f_chain u) /\ review (p_hash pf) x t = Some lines /\ xexpert_ok x (p_time pf) (x_payload t) /\
  S.len (t_offs (n_top k')) = S.len (t_offs (n_top k)) /\ exists v, tx_parse pf x (1 :: data) = Ret v.
Proof.
  destruct (wrap_outside_by false) as (pf & x & data & data' & k & u & k' & t & lines & H). cbv beta iota in H.
  exists pf, x, data, data', k, u, k', t, lines. tauto.
Qed.

Lemma plain_padded x : exists pf data k u t lines nm, hash32 (p_hash pf) /\ bytes data /\ zlen data < 65000 /\ begins data k u /\ f_hash u = p_hash pf (form_payload k u) /\
  f_entry u = Custom nm /\ appears k u data t /\ within k u t /\ chain_shown x (f_chain u) /\ review (p_hash pf) x t = Some lines /\ xexpert_ok x (p_time pf) (x_payload t) /\
  args_pos k u < 256 /\ 260 <= args_pos k u + 6 * (10 - zlen (t_offs (n_top k))) /\ exact_numbers k u /\ x_args (x_payload t) = Raw [1; 2; 3].
Proof.
  destruct plain_facts as (B & L & Bg & EN & PO & Ap). destruct (pad_lines x [1; 2; 3]) as (lines & R & _).
  exists demo, pad_plain, (pad_num pad_call), pad_call, (pad_seen [1; 2; 3]), lines, (text "mint").
  split; [exact demo_hash32|]. split; [exact B|]. split; [lia|]. split; [exact Bg|]. split; [exact pad_hash|]. split; [reflexivity|]. split; [exact Ap|].
  split; [split; vm_compute; congruence|]. split; [apply pad_chain|]. split; [exact R|]. split; [apply v1_expert; reflexivity|]. rewrite PO. split; [lia|]. split; [vm_compute; congruence|]. split; [exact EN|reflexivity].
Qed.

(** A call with named arguments and classic pricing *)
Definition ord_of (h : list Z) : form :=
  Form h bob 1700000000000 1800000 (text "casper-test") (PClassic 2500000000 2 1) (ANamed (List.map raw_of [arg_id; arg_target; arg_amount])) (XStored (SD.ByName (text "counter")) VmV1) (Custom (text "mint")) [demo_approved].
Definition ord_call : form := ord_of (demo_hash (form_payload (wrap_num (ord_of (repeat 0 32))) (ord_of (repeat 0 32)))).
Definition ord_num : numbers := wrap_num ord_call.
Definition ord_data : list Z := form_bytes ord_num ord_call.
Definition ord_bytes : list Z := enc_args [arg_id; arg_target; arg_amount].
Definition ord_seen : transaction :=
  Transaction (f_hash ord_call) (Payload bob 1700000000000 1800000 (text "casper-test") (Classic 2500000000 2 true) (Raw ord_bytes) (XStored (SD.ByName (text "counter")) VmV1) (Custom (text "mint")))
    [SD.Approval 1 [] []].
Lemma ord_ok h : len h = 32 -> form_ok (ord_of h).
Proof.
  intros Hh. constructor; cbn [ord_of f_hash f_initiator f_time f_ttl f_price f_args f_target f_entry f_approvals]; try lia; auto.
  - right. right. split; reflexivity.
  - cbn. lia.
  - cbn [form_args List.map]. repeat (apply Forall_cons; [readably|]); apply Forall_nil.
  - split; exact Logic.I.
  - constructor; [|constructor]. split; [right; left; split; reflexivity|]. split; [left; reflexivity|reflexivity].
Qed.
Lemma ord_payload h h' : form_payload (wrap_num (ord_of h)) (ord_of h) = form_payload (wrap_num (ord_of h')) (ord_of h').
Proof. reflexivity. Qed.
Lemma ord_hash : f_hash ord_call = p_hash demo (form_payload ord_num ord_call).
Proof. change (p_hash demo) with demo_hash. unfold ord_num, ord_call at 1. cbn [ord_of f_hash]. apply (f_equal demo_hash). unfold ord_call. apply ord_payload. Qed.
Lemma ord_padded x : exists pf data k u t lines nm, hash32 (p_hash pf) /\ bytes data /\ zlen data < 65000 /\ begins data k u /\ f_hash u = p_hash pf (form_payload k u) /\
  f_entry u = Custom nm /\ appears k u data t /\ within k u t /\ chain_shown x (f_chain u) /\ review (p_hash pf) x t = Some lines /\ xexpert_ok x (p_time pf) (x_payload t) /\
  args_pos k u < 256 /\ 260 <= args_pos k u + 6 * (10 - zlen (t_offs (n_top k))) /\ exact_numbers k u /\ f_args u = ANamed (List.map raw_of [arg_id; arg_target; arg_amount]) /\ f_chain u = text "casper-test".
Proof.
  assert (F : form_ok ord_call) by (apply ord_ok; apply (proj1 (demo_hash32 _))).
  assert (N : numbers_ok ord_num ord_call) by (apply (right_ok (len (argument_bytes (f_args ord_call))) ord_call); vm_compute; try split; congruence).
  assert (R : exists lines, review (p_hash demo) x ord_seen = Some lines) by (apply is_some_ok; destruct x; vm_compute; reflexivity). destruct R as (lines & R).
  exists demo, ord_data, ord_num, ord_call, ord_seen, lines, (text "mint").
  split; [exact demo_hash32|]. split; [apply bytesb_ok; vm_compute; reflexivity|]. split; [vm_compute; reflexivity|].
  split; [unfold ord_data; rewrite <- (app_nil_r (form_bytes _ _)); exact (begins_of _ ord_call [] F N)|]. split; [exact ord_hash|]. split; [reflexivity|].
  split.
  { constructor; try reflexivity.
    - split; reflexivity.
    - change (f_entry ord_call) with (Custom (text "mint")). exists ord_bytes. split; [reflexivity|]. split; [|vm_compute; reflexivity].
      exists (firstn (Z.to_nat (seen_pos ord_num ord_call - 4)) ord_data), (skipn (Z.to_nat (seen_pos ord_num ord_call - 4) + List.length ord_bytes) ord_data). split; vm_compute; reflexivity. }
  split; [split; vm_compute; congruence|]. split; [split; [left; vm_compute; reflexivity|intros _; vm_compute; reflexivity]|]. split; [exact R|].
  split; [apply v1_expert; reflexivity|]. split; [vm_compute; reflexivity|]. split; [vm_compute; congruence|]. split; [exact (right_exact ord_call)|]. split; reflexivity.
Qed.
