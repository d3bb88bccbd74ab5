(** Witnesses for what is shown of TransactionV1s in arbitrary bytes. *)
From Verif Require Import Base Zxlib Crypto Utils RuntimeArg Deploy DeployUI TxV1 TxV1UI Parser BaseFacts Spec SpecText SpecDeploy SpecTx SpecLayout SpecRaw SpecForm SpecShow Exec Demo Shows ReviewFacts WitDeploy TxShow TxReview WitTx BindFacts TxAccept TxClaims LookFacts WitLook WitRaw FormFacts FormReview FormArgs WitMore WitForm.
Import S SX SL SR SF SW.

Lemma begins_of k u r : form_ok u -> numbers_ok k u -> begins (form_bytes k u ++ r) k u.
Proof. intros F N. split; [exact F|]. split; [exact N|]. exists r, []. rewrite app_nil_r. split; [reflexivity|]. split; left; reflexivity. Qed.

(** ** The transaction in which everything is wrong (C71) has a review *)
Definition odd_data : list Z := form_bytes (odd_numbers odd_one) odd_one.
Definition odd_seen : transaction :=
  Transaction (f_hash odd_one) (Payload (f_initiator odd_one) (f_time odd_one) (f_ttl odd_one) (f_chain odd_one) (Classic 2500000000 2 true)
    (Raw (le 2 1)) (f_target odd_one) (f_entry odd_one)) [SD.Approval 1 [] []].
Lemma odd_begins : begins odd_data (odd_numbers odd_one) odd_one.
Proof. unfold odd_data. rewrite <- (app_nil_r (form_bytes _ _)). apply begins_of; [exact odd_form_ok|exact odd_numbers_ok]. Qed.
Lemma odd_depicts : depicts (odd_numbers odd_one) odd_one odd_data odd_seen.
Proof.
  constructor; try reflexivity; [split; reflexivity|]. cbn [odd_one odd_form f_entry]. eexists. split; [reflexivity|]. cbn [digested odd_one odd_form f_args].
  split; [|reflexivity]. exists (firstn 204 odd_data), (skipn 206 odd_data). split; vm_compute; reflexivity.
Qed.
Lemma odd_presentable : presentable odd_seen.
Proof.
  constructor; cbn [odd_seen x_payload x_chain x_entry x_target x_args x_approvals odd_one odd_form f_chain f_entry f_target].
  - split; [vm_compute; congruence|]. intros K. vm_compute in K. intuition discriminate.
  - split; [vm_compute; congruence|]. intros K. vm_compute in K. intuition discriminate.
  - reflexivity.
  - constructor.
  - reflexivity.
Qed.
Lemma odd_shown x : exists data v k u t lines, bytes data /\ zlen data < 65472 /\ no_leap data /\ tx_parse demo x (1 :: data) = Ret (TV1 v) /\
  begins data k u /\ ~ exact_numbers k u /\ ~ strict u /\ depicts k u data t /\ presentable t /\ review (p_hash demo) x t = Some lines /\
  xexpert_ok x (p_time demo) (x_payload t) /\ args_pos k u < 256 /\ plain_types u /\ version_known x (f_target u) /\ (exists name, f_entry u = Custom name).
Proof.
  exists odd_data. destruct x; eexists; exists (odd_numbers odd_one), odd_one, odd_seen; eexists;
    (split; [apply bytesb_ok; vm_compute; reflexivity|]; split; [vm_compute; reflexivity|]; split; [apply no_ff_leap; vm_compute; reflexivity|]; split; [vm_compute; reflexivity|];
     split; [exact odd_begins|]; split; [intros E; pose proof (en_args _ _ E) as K; vm_compute in K; discriminate K|];
     split; [intros E; pose proof (sf_initiator _ E) as K; apply K; reflexivity|];
     split; [exact odd_depicts|]; split; [exact odd_presentable|]; split; [vm_compute; reflexivity|];
     split; [|split; [vm_compute; reflexivity|split; [exact Logic.I|split; [intros _; exact Logic.I|eexists; reflexivity]]]]).
  - intros _. split; [vm_compute; reflexivity|]. split; [eexists; vm_compute; reflexivity|vm_compute; reflexivity].
  - intros E. discriminate E.
Qed.

(** ** The hash of bytes that are not signed *)
Definition far_args (n : Z) (l : list raw_arg) : form :=
  form_of (demo_hash (form_payload (right_numbers n (form_of (repeat 0 32) l)) (form_of (repeat 0 32) l))) l.
Lemma far_ok n l : Forall readable l -> form_ok (far_args n l).
Proof. intros R. pose proof (called_ok l R) as [H1 H2 H3 H4 H5 H6 H7 H8 H9]. constructor; auto. Qed.
Lemma unsigned_refuted : exists pf k u, hash32 (p_hash pf) /\ form_ok u /\ numbers_ok k u /\ strict u /\ f_hash u = p_hash pf (form_payload k u) /\ args_pos k u < 256 /\
  bytes (form_bytes k u) /\
  forall x, exists t a b i, let da := 1 :: form_bytes k u ++ [1] in let db := 1 :: form_bytes k u ++ [2] in
    tx_parse pf x da = Ret t /\ tx_parse pf x db = Ret t /\ 0 <= i < getNumItems x t /\
    tx_getItem pf x 40 da t i = Ret (mkItem (text "Args hash") a) /\ tx_getItem pf x 40 db t i = Ret (mkItem (text "Args hash") b) /\ a <> b.
Proof.
  exists demo, (right_numbers 282 (far_args 282 few_args)), (far_args 282 few_args). split; [exact demo_hash32|]. split; [apply far_ok, few_readable|].
  split; [apply right_ok; [unfold word; lia|vm_compute; reflexivity]|].
  split; [constructor; cbn [far_args form_of f_initiator f_price f_args f_approvals]; [cbn; lia|auto| |repeat constructor]; repeat constructor; intros O; inversion O as [? ? E|? ? ? ? ? E|? ? ? ? E]; subst; inversion E; lia|].
  split; [reflexivity|]. split; [vm_compute; reflexivity|]. split; [apply bytesb_ok; vm_compute; reflexivity|].
  intros x. destruct x; [do 3 eexists; exists 11|do 3 eexists; exists 7]; cbv zeta;
    (split; [vm_compute; reflexivity|]; split; [vm_compute; reflexivity|]; split; [vm_compute; split; congruence|]; split; [vm_compute; reflexivity|]; split; [vm_compute; reflexivity|]; vm_compute; congruence).
Qed.

(** ** Native operations whose arguments have a wrong length *)
Definition native_of (h : list Z) (n : native) : form :=
  Form h alice 1700000000000 1800000 (text "casper") (PClassic 2500000000 2 1) (ANamed (List.map raw_of (native_args n))) Native (Op n) [demo_approved].
Definition native_form (n : native) : form := native_of (demo_hash (form_payload (right_numbers 3 (native_of (repeat 0 32) n)) (native_of (repeat 0 32) n))) n.
Ltac readably := unfold readable; cbn;
  first [apply (t_flat _ []), f_simple; unfold simple; lia
        |eapply t_flat, (f_one _ _ []); [lia|unfold component; lia|right; split; [lia|reflexivity]]
        |apply (t_flat 15 [_; _; _; _]), f_array; reflexivity|apply t_flat, f_any].
Lemma native_form_ok n : form_ok (native_form n).
Proof.
  constructor; cbn [native_form native_of f_hash f_initiator f_time f_ttl f_price f_args f_target f_entry f_approvals]; try lia.
  - apply (proj1 (demo_hash32 _)).
  - right. left. split; reflexivity.
  - cbn. lia.
  - cbn [form_args]. destruct n; cbn [native_args List.map]; repeat (apply Forall_cons; [readably|]); apply Forall_nil.
  - exact Logic.I.
  - reflexivity.
  - constructor; [|constructor]. split; [right; left; split; reflexivity|]. split; [left; reflexivity|reflexivity].
Qed.
Lemma native_shown x n : exists data v k u t lines, bytes data /\ zlen data < 65472 /\ no_leap data /\ tx_parse demo x (1 :: data) = Ret (TV1 v) /\
  begins data k u /\ n_args k <> len (argument_bytes (f_args u)) /\ f_entry u = Op n /\ args_pos k u < 256 /\
  depicts k u data t /\ presentable t /\ review (p_hash demo) x t = Some lines /\ xexpert_ok x (p_time demo) (x_payload t).
Proof.
  exists (form_bytes (right_numbers 3 (native_form n)) (native_form n)).
  assert (A : accepted demo x (1 :: form_bytes (right_numbers 3 (native_form n)) (native_form n))) by (apply taken_ok; destruct x, n; vm_compute; reflexivity).
  destruct A as (w & A). destruct w as [w|v].
  { exfalso. apply parse_of_accept in A. unfold parser_parse in A. destruct (u16 _ =? 0); [discriminate A|]. destruct (u16 _ =? 1); [discriminate A|].
    destruct (parse_content _ _ _) as [[w0|c|q] o] eqn:E; cbn [fst] in A; try discriminate A. injection A as ->. apply content_deploy in E. destruct E as [E _]. discriminate E. }
  set (u := native_form n) in *. set (k := right_numbers 3 u) in *.
  assert (N : numbers_ok k u) by (apply right_ok; [unfold word; lia|destruct n; vm_compute; reflexivity]).
  exists v, k, u, (Transaction (f_hash u) (Payload (f_initiator u) (f_time u) (f_ttl u) (f_chain u) (Classic 2500000000 2 true) (Named (native_args n)) Native (Op n)) [SD.Approval 1 [] []]).
  assert (R : exists lines, review (p_hash demo) x (Transaction (f_hash u) (Payload (f_initiator u) (f_time u) (f_ttl u) (f_chain u) (Classic 2500000000 2 true) (Named (native_args n)) Native (Op n)) [SD.Approval 1 [] []]) = Some lines).
  { apply is_some_ok. destruct x, n; vm_compute; reflexivity. }
  destruct R as (lines & R). exists lines.
  split; [apply bytesb_ok; destruct n; vm_compute; reflexivity|]. split; [destruct n; vm_compute; reflexivity|]. split; [apply no_ff_leap; destruct n; vm_compute; reflexivity|]. split; [exact A|].
  split; [rewrite <- (app_nil_r (form_bytes k u)); apply begins_of; [apply native_form_ok|exact N]|].
  split; [destruct n; vm_compute; congruence|]. split; [reflexivity|]. split; [destruct n; vm_compute; reflexivity|].
  split; [|split; [|split; [exact R|]]].
  - constructor; try reflexivity; [split; reflexivity|]. exists (native_args n). split; reflexivity.
  - pose proof (gt_payload _ _ (t_native_good n)) as G. constructor; try exact Logic.I; try reflexivity.
    + split; [vm_compute; congruence|]. intros K. vm_compute in K. intuition discriminate.
    + exact (gx_args _ G).
  - apply v1_expert. reflexivity.
Qed.
Lemma digest_case : exists data k u bs l, begins data k u /\ digested k u data bs /\ f_args u = ANamed l /\ n_args k = len (argument_bytes (f_args u)) /\
  1 <= n_args k /\ args_pos k u - 5 + n_args k <= len (heading (n_top k) ++ f_hash u ++ form_payload k u).
Proof.
  set (u := called few_args). set (k := right_numbers (len (argument_bytes (f_args u))) u).
  exists (form_bytes k u), k, u, (skipn 1 (argument_bytes (f_args u))), few_args.
  assert (N : numbers_ok k u) by (apply right_ok; [vm_compute; split; congruence|vm_compute; reflexivity]).
  split; [rewrite <- (app_nil_r (form_bytes k u)); apply begins_of; [apply called_ok, few_readable|exact N]|].
  split; [|split; [reflexivity|split; [reflexivity|split; vm_compute; congruence]]].
  split; [exists (firstn 236 (form_bytes k u)), (skipn 257 (form_bytes k u)); split; vm_compute; reflexivity|vm_compute; reflexivity].
Qed.
