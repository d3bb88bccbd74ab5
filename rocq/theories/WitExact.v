(** Witnesses for the verdict on forms of TransactionV1s. *)
From Verif Require Import Base Zxlib Crypto Utils RuntimeArg Deploy DeployUI TxV1 TxV1UI Parser BaseFacts Spec SpecText SpecDeploy SpecTx SpecLayout SpecRaw SpecForm SpecShow Exec Demo Shows ReviewFacts WitDeploy TxShow TxReview WitTx BindFacts TxAccept TxClaims LookFacts WitLook WitRaw FormFacts FormReview FormArgs FormAccept WitMore WitForm WitShow.
Import S SX SL SR SF SW.

(** ** The odd transaction of C71, ten bytes of its signature missing *)
Definition cut_data : list Z := firstn (List.length odd_data - 10) odd_data.
Lemma cut_begins : begins cut_data (odd_numbers odd_one) odd_one.
Proof.
  split; [exact odd_form_ok|]. split; [exact odd_numbers_ok|]. exists [], (repeat 3 10). split; [vm_compute; reflexivity|]. split; [right; reflexivity|].
  right. exists [], (Approved 0 [] 2 (repeat 3 64)), (repeat 3 54). split; reflexivity.
Qed.
Lemma cut_depicts : depicts (odd_numbers odd_one) odd_one cut_data odd_seen.
Proof.
  constructor; try reflexivity; [split; reflexivity|]. cbn [odd_one odd_form f_entry]. eexists. split; [reflexivity|]. cbn [digested odd_one odd_form f_args].
  split; [|reflexivity]. exists (firstn 204 cut_data), (skipn 206 cut_data). split; vm_compute; reflexivity.
Qed.
Lemma cut_case x : exists data k u t lines, bytes data /\ zlen data < 65472 /\ begins data k u /\ zlen data < zlen (form_bytes k u) /\ ~ exact_numbers k u /\
  f_hash u = p_hash demo (form_payload k u) /\ depicts k u data t /\ presentable t /\ acceptable (x_payload t) = true /\
  review (p_hash demo) x t = Some lines /\ xexpert_ok x (p_time demo) (x_payload t) /\ args_pos k u < 256.
Proof.
  exists cut_data, (odd_numbers odd_one), odd_one, odd_seen.
  destruct x; eexists; (split; [apply bytesb_ok; vm_compute; reflexivity|]; split; [vm_compute; reflexivity|]; split; [exact cut_begins|]; split; [vm_compute; reflexivity|];
    split; [intros E; pose proof (en_args _ _ E) as K; vm_compute in K; discriminate K|]; split; [reflexivity|]; split; [exact cut_depicts|]; split; [exact odd_presentable|];
    split; [vm_compute; reflexivity|]; split; [vm_compute; reflexivity|]; split; [|vm_compute; reflexivity]).
  - intros _. split; [vm_compute; reflexivity|]. split; [eexists; vm_compute; reflexivity|vm_compute; reflexivity].
  - intros E. discriminate E.
Qed.

(** ** Native operations, and the same with other approvals and a byte behind *)
Definition native_seen (u : form) (n : native) : transaction :=
  Transaction (f_hash u) (Payload (f_initiator u) (f_time u) (f_ttl u) (f_chain u) (Classic 2500000000 2 true) (Named (native_args n)) Native (Op n)) [SD.Approval 1 [] []].
Definition native_data (u : form) : list Z := form_bytes (right_numbers 3 u) u.
Lemma native_numbers_ok n : numbers_ok (right_numbers 3 (native_form n)) (native_form n).
Proof. apply right_ok; [unfold word; lia|destruct n; vm_compute; reflexivity]. Qed.
Lemma native_begins n : begins (native_data (native_form n)) (right_numbers 3 (native_form n)) (native_form n).
Proof. unfold native_data. rewrite <- (app_nil_r (form_bytes _ _)). apply begins_of; [apply native_form_ok|apply native_numbers_ok]. Qed.
Lemma native_depicts k u data n : (exists h, u = native_of h n) -> depicts k u data (native_seen u n).
Proof. intros (h & ->). constructor; try reflexivity; [split; reflexivity|]. exists (native_args n). split; reflexivity. Qed.
Lemma native_presentable u n : f_chain u = text "casper" -> presentable (native_seen u n).
Proof.
  intros E. pose proof (gt_payload _ _ (t_native_good n)) as G. constructor; try exact Logic.I; try reflexivity.
  - cbn [native_seen x_payload x_chain]. rewrite E. split; [vm_compute; congruence|]. intros K. vm_compute in K. intuition discriminate.
  - exact (gx_args _ G).
Qed.
Lemma native_case x n : exists data k u t lines, bytes data /\ zlen data < 65472 /\ begins data k u /\ f_entry u = Op n /\ ~ exact_numbers k u /\
  f_hash u = p_hash demo (form_payload k u) /\ depicts k u data t /\ presentable t /\ acceptable (x_payload t) = true /\
  review (p_hash demo) x t = Some lines /\ xexpert_ok x (p_time demo) (x_payload t) /\ args_pos k u < 256.
Proof.
  exists (native_data (native_form n)), (right_numbers 3 (native_form n)), (native_form n), (native_seen (native_form n) n).
  assert (R : exists lines, review (p_hash demo) x (native_seen (native_form n) n) = Some lines) by (apply is_some_ok; destruct x, n; vm_compute; reflexivity).
  destruct R as (lines & R). exists lines.
  split; [apply bytesb_ok; destruct n; vm_compute; reflexivity|]. split; [destruct n; vm_compute; reflexivity|]. split; [apply native_begins|]. split; [reflexivity|].
  split; [intros E; pose proof (en_args _ _ E) as K; destruct n; vm_compute in K; discriminate K|].
  split; [reflexivity|]. split; [apply native_depicts; eexists; reflexivity|]. split; [apply native_presentable; reflexivity|]. split; [destruct n; vm_compute; reflexivity|].
  split; [exact R|]. split; [apply v1_expert; reflexivity|destruct n; vm_compute; reflexivity].
Qed.

(** ** Rejected: a wrong hash, no arguments *)
Definition wrong_form (n : native) : form := native_of (repeat 0 32) n.
Lemma wrong_ok n : form_ok (wrong_form n).
Proof. pose proof (native_form_ok n) as [H1 H2 H3 H4 H5 H6 H7 H8 H9]. constructor; auto. Qed.
Lemma wrong_case n : exists data k u t, bytes data /\ zlen data < 65472 /\ begins data k u /\ f_entry u = Op n /\
  f_hash u <> p_hash demo (form_payload k u) /\ depicts k u data t /\ presentable t /\ acceptable (x_payload t) = true /\ args_pos k u < 256.
Proof.
  exists (native_data (wrong_form n)), (right_numbers 3 (wrong_form n)), (wrong_form n), (native_seen (wrong_form n) n).
  split; [apply bytesb_ok; destruct n; vm_compute; reflexivity|]. split; [destruct n; vm_compute; reflexivity|].
  split; [unfold native_data; rewrite <- (app_nil_r (form_bytes _ _)); apply begins_of; [apply wrong_ok|apply right_ok; [unfold word; lia|destruct n; vm_compute; reflexivity]]|].
  split; [reflexivity|]. split; [destruct n; vm_compute; congruence|]. split; [apply native_depicts; eexists; reflexivity|]. split; [apply native_presentable; reflexivity|].
  split; destruct n; vm_compute; reflexivity.
Qed.
Definition empty_of (h : list Z) (n : native) : form :=
  Form h alice 1700000000000 1800000 (text "casper") (PClassic 2500000000 2 1) (ANamed []) Native (Op n) [demo_approved].
Definition empty_form (n : native) : form := empty_of (demo_hash (form_payload (right_numbers 3 (empty_of (repeat 0 32) n)) (empty_of (repeat 0 32) n))) n.
Lemma empty_case n : exists data k u t, bytes data /\ zlen data < 65472 /\ begins data k u /\ f_entry u = Op n /\
  f_hash u = p_hash demo (form_payload k u) /\ depicts k u data t /\ presentable t /\ acceptable (x_payload t) = false /\ args_pos k u < 256.
Proof.
  set (u := empty_form n). exists (native_data u), (right_numbers 3 u), u,
    (Transaction (f_hash u) (Payload (f_initiator u) (f_time u) (f_ttl u) (f_chain u) (Classic 2500000000 2 true) (Named []) Native (Op n)) [SD.Approval 1 [] []]).
  assert (F : form_ok u).
  { pose proof (native_form_ok n) as [H1 H2 H3 H4 H5 H6 H7 H8 H9]. constructor; auto; constructor. }
  split; [apply bytesb_ok; destruct n; vm_compute; reflexivity|]. split; [destruct n; vm_compute; reflexivity|].
  split; [unfold native_data; rewrite <- (app_nil_r (form_bytes _ _)); apply begins_of; [exact F|apply right_ok; [unfold word; lia|destruct n; vm_compute; reflexivity]]|].
  split; [reflexivity|]. split; [reflexivity|].
  split; [constructor; try reflexivity; [split; reflexivity|exists []; split; reflexivity]|].
  split; [constructor; try exact Logic.I; try reflexivity; [split; [vm_compute; congruence|intros K; vm_compute in K; intuition discriminate]|constructor]|].
  split; destruct n; vm_compute; reflexivity.
Qed.

(** ** Another number of approvals *)
Definition twice (n : native) : form := re_signed (native_form n) [demo_approved; demo_approved].
Lemma twice_case (x : bool) (n : native) : exists data data' k u k' u' t lines, bytes data /\ bytes data' /\ zlen data < 65472 /\ zlen data' < 65472 /\
  begins data k u /\ begins data' k' u' /\ form_payload k u = form_payload k' u' /\ f_hash u = f_hash u' /\ inside k u /\ f_entry u = Op n /\ f_approvals u <> f_approvals u' /\
  depicts k u data t /\ presentable t /\ review (p_hash demo) x t = Some lines /\ xexpert_ok x (p_time demo) (x_payload t) /\
  args_pos k u < 256 /\ args_pos k' u' < 256 /\ zlen (f_approvals u') < 256 /\ (exists v, tx_parse demo x (1 :: data) = Ret v).
Proof.
  exists (native_data (native_form n)), (native_data (twice n) ++ [7]), (right_numbers 3 (native_form n)), (native_form n), (right_numbers 3 (twice n)), (twice n), (native_seen (native_form n) n).
  assert (R : exists lines, review (p_hash demo) x (native_seen (native_form n) n) = Some lines) by (apply is_some_ok; destruct x, n; vm_compute; reflexivity).
  destruct R as (lines & R). exists lines.
  assert (F : form_ok (twice n)).
  { pose proof (native_form_ok n) as [H1 H2 H3 H4 H5 H6 H7 H8 H9]. constructor; auto. cbn [twice re_signed f_approvals]. cbn [native_form native_of f_approvals] in H9. inversion H9; subst. auto. }
  split; [apply bytesb_ok; destruct n; vm_compute; reflexivity|]. split; [apply bytesb_ok; destruct n; vm_compute; reflexivity|].
  split; [destruct n; vm_compute; reflexivity|]. split; [destruct n; vm_compute; reflexivity|]. split; [apply native_begins|].
  split; [apply begins_of; [exact F|apply right_ok; [unfold word; lia|destruct n; vm_compute; reflexivity]]|].
  split; [reflexivity|]. split; [reflexivity|]. split; [exact Logic.I|]. split; [reflexivity|]. split; [intros E; discriminate E|].
  split; [apply native_depicts; eexists; reflexivity|]. split; [apply native_presentable; reflexivity|]. split; [exact R|]. split; [apply v1_expert; reflexivity|].
  split; [destruct n; vm_compute; reflexivity|]. split; [destruct n; vm_compute; reflexivity|]. split; [reflexivity|].
  apply taken_ok. destruct x, n; vm_compute; reflexivity.
Qed.
