(** Witnesses for TransactionV1s in arbitrary bytes. *)
From Verif Require Import Base Zxlib Crypto Utils RuntimeArg Deploy DeployUI TxV1 TxV1UI Parser BaseFacts Spec SpecText SpecDeploy SpecTx SpecLayout SpecRaw SpecForm SpecLook Exec ArgsFacts ReaderFacts Demo Shows ReviewFacts DeployCases WitDeploy TxFacts TxBody TxShow TxReview TxClaims WitTx LookFacts LookTx WitLook WitMore RawFacts RawShow WitRaw FormFacts FormShow.
Import S SX SL SR SF.

(** ** Tables with the right numbers *)
Lemma offsets_len fs : forall o, zlen (offsets o fs) = zlen fs.
Proof. induction fs as [|f fs IH]; intros o; [reflexivity|]. cbn [offsets]. rewrite !zlen_cons, IH. reflexivity. Qed.
Lemma offsets_words fs : forall o, 0 <= o -> o + zlen (List.concat fs) < 65536 -> Forall word (offsets o fs).
Proof.
  induction fs as [|f fs IH]; intros o O L; [constructor|]. cbn [offsets List.concat] in *. rewrite zlen_app in L.
  pose proof (zlen_nonneg f). pose proof (zlen_nonneg (List.concat fs)). change (S.len f) with (zlen f).
  constructor; [unfold word; lia|apply IH; lia].
Qed.
Lemma contents_covers fs : 1 <= zlen fs <= 10 -> zlen (List.concat fs) < 65536 -> covers (contents fs) fs.
Proof.
  intros N L. pose proof (zlen_nonneg (List.concat fs)). unfold contents. change (@S.len Z) with (@zlen Z). change (@S.len (list Z)) with (@zlen (list Z)).
  split; [split|]; cbn [t_n t_offs t_size].
  - constructor; cbn [t_n t_offs t_size]; [unfold word; lia|apply offsets_words; lia|unfold word; lia|rewrite Z.mod_small; lia|].
    change (@S.len Z) with (@zlen Z). rewrite offsets_len, Z.mod_small; lia.
  - exists []. rewrite app_nil_r. reflexivity.
  - change (@S.len Z) with (@zlen Z). apply Z.mod_small. lia.
Qed.
Lemma starts_prefix t a b : starts t (a ++ b) -> starts t a.
Proof.
  intros [T (m & E)]. split; [exact T|]. enough (X : forall o, exists r, offsets o (a ++ b) = offsets o a ++ r).
  { destruct (X 0) as (r & Er). exists (r ++ m). rewrite E, Er, app_assoc. reflexivity. }
  clear. induction a as [|f a IH]; intros o; [exists (offsets o b); reflexivity|]. cbn [app offsets]. destruct (IH (o + len f)) as (r & ->). exists r. reflexivity.
Qed.
Lemma under_len t fs : zlen (List.concat fs) <= zlen (under t fs).
Proof. unfold under. rewrite zlen_app. pose proof (zlen_nonneg (heading t)). lia. Qed.
Lemma part_len (f : list Z) fs : In f fs -> zlen f <= zlen (List.concat fs).
Proof.
  induction fs as [|g fs IH]; intros I; [destruct I|]. cbn [List.concat]. rewrite zlen_app. pose proof (zlen_nonneg g). pose proof (zlen_nonneg (List.concat fs)).
  destruct I as [<-|I]; [lia|]. specialize (IH I). lia.
Qed.
Lemma table_under fs : zlen (table fs) = zlen (under (contents fs) fs).
Proof. rewrite under_contents. reflexivity. Qed.

Ltac small := unfold word; cbn [fst snd]; change (@S.len Z) with (@zlen Z); lia.
(** The right numbers are among those allowed, whatever the length of the
    arguments is said to be; with the true length they are exact. *)
Lemma right_ok n u : word n -> zlen (form_bytes (right_numbers n u) u) < 65536 -> numbers_ok (right_numbers n u) u.
Proof.
  intros Wn L. set (k := right_numbers n u) in *.
  assert (K1 : n_top k = contents (top_fields k u)) by reflexivity.
  assert (K2 : n_payload k = contents (form_fields k u)) by reflexivity.
  assert (KI : n_initiator k = contents (initiator_fields (f_initiator u))) by reflexivity.
  assert (KP : n_price k = contents (price_fields (f_price u))) by reflexivity.
  assert (KT : n_target k = (len (table (target_fields k (f_target u))), contents (target_fields k (f_target u)))) by (destruct u as [h a tm tl c p ar t ent aps]; destruct t; reflexivity).
  assert (KE : n_entry k = (len (table (entry_fields (f_entry u))), contents (entry_fields (f_entry u)))) by reflexivity.
  assert (KS : n_sched k = (len (table [[0]]), contents [[0]])) by reflexivity.
  assert (L1 : zlen (List.concat (top_fields k u)) < 65536) by (pose proof (under_len (n_top k) (top_fields k u)); unfold form_bytes in L; lia).
  assert (L2 : zlen (form_payload k u) < 65536) by (pose proof (part_len (form_payload k u) (top_fields k u) ltac:(cbn; auto)); lia).
  assert (L3 : zlen (List.concat (form_fields k u)) < 65536) by (pose proof (under_len (n_payload k) (form_fields k u)); unfold form_payload in L2; lia).
  assert (LI : zlen (List.concat (initiator_fields (f_initiator u))) < 65536).
  { pose proof (part_len (under (n_initiator k) (initiator_fields (f_initiator u))) (form_fields k u) ltac:(cbn; auto)).
    pose proof (under_len (n_initiator k) (initiator_fields (f_initiator u))). lia. }
  assert (LP : zlen (List.concat (price_fields (f_price u))) < 65536).
  { pose proof (part_len (under (n_price k) (price_fields (f_price u))) (form_fields k u) ltac:(cbn; tauto)).
    pose proof (under_len (n_price k) (price_fields (f_price u))). lia. }
  assert (LB : zlen (le 4 4 ++ section 0 (n_args k) (argument_bytes (f_args u)) ++ section 1 (fst (n_target k)) (under (snd (n_target k)) (target_fields k (f_target u)))
    ++ section 2 (fst (n_entry k)) (under (snd (n_entry k)) (entry_fields (f_entry u))) ++ section 3 (fst (n_sched k)) (under (snd (n_sched k)) [[0]])) < 65536).
  { match goal with |- zlen ?b < _ => pose proof (part_len b (form_fields k u) ltac:(cbn [form_fields In]; tauto)) end. lia. }
  unfold section in LB. rewrite !zlen_app, !le_length in LB.
  pose proof (zlen_nonneg (argument_bytes (f_args u))). pose proof (zlen_nonneg (under (snd (n_target k)) (target_fields k (f_target u)))).
  pose proof (zlen_nonneg (under (snd (n_entry k)) (entry_fields (f_entry u)))). pose proof (zlen_nonneg (under (snd (n_sched k)) [[0]])).
  assert (LT : zlen (under (snd (n_target k)) (target_fields k (f_target u))) < 65536) by lia.
  assert (LE : zlen (under (snd (n_entry k)) (entry_fields (f_entry u))) < 65536) by lia. clear LB.
  pose proof (under_len (snd (n_target k)) (target_fields k (f_target u))) as LT'. pose proof (under_len (snd (n_entry k)) (entry_fields (f_entry u))) as LE'.
  constructor.
  - rewrite K1. apply contents_covers; [cbn; lia|exact L1].
  - rewrite K2. apply contents_covers; [cbn; lia|exact L3].
  - rewrite KI. split; [apply contents_covers; [cbn; lia|exact LI]|reflexivity].
  - rewrite KP. apply contents_covers; [destruct (f_price u); cbn; lia|exact LP].
  - exact Wn.
  - rewrite KT. cbn [fst]. change (@S.len Z) with (@zlen Z). rewrite table_under. rewrite KT in LT. cbn [snd] in LT.
    pose proof (zlen_nonneg (under (contents (target_fields k (f_target u))) (target_fields k (f_target u)))). unfold word. lia.
  - rewrite KE. cbn [fst]. change (@S.len Z) with (@zlen Z). rewrite table_under. rewrite KE in LE. cbn [snd] in LE.
    pose proof (zlen_nonneg (under (contents (entry_fields (f_entry u))) (entry_fields (f_entry u)))). unfold word. lia.
  - rewrite KS. vm_compute. split; congruence.
  - rewrite KT. cbn [snd]. assert (C : covers (contents (target_fields k (f_target u))) (target_fields k (f_target u))).
    { apply contents_covers; [destruct (f_target u); cbn; lia|lia]. }
    destruct (f_target u) as [|i r|b r w]; [exact C|apply (starts_prefix _ _ (skipn 2 (target_fields k (XStored i r)))), C|apply (starts_prefix _ _ (skipn 2 (target_fields k (Session b r w)))), C].
  - destruct (f_target u) as [|i r|b r w] eqn:E; auto.
    assert (KD : n_id k = contents (id_fields i)) by (unfold k, right_numbers; rewrite E; reflexivity). rewrite KD.
    refine (proj1 (proj1 (contents_covers _ _ _))); [destruct i; cbn; lia|].
    pose proof (part_len (under (n_id k) (id_fields i)) (target_fields k (XStored i r)) ltac:(cbn; auto)).
    pose proof (under_len (n_id k) (id_fields i)). lia.
  - destruct (f_target u) as [|i r|b r w] eqn:E; auto.
    + assert (KD : n_runtime k = contents (runtime_fields r)) by (unfold k, right_numbers; rewrite E; reflexivity). rewrite KD.
      refine (proj1 (proj1 (contents_covers _ _ _))); [destruct r; cbn; lia|].
      pose proof (part_len (under (n_runtime k) (runtime_fields r)) (target_fields k (XStored i r)) ltac:(cbn; auto)).
      pose proof (under_len (n_runtime k) (runtime_fields r)). lia.
    + assert (KD : n_runtime k = contents (runtime_fields r)) by (unfold k, right_numbers; rewrite E; reflexivity). rewrite KD.
      refine (proj1 (proj1 (contents_covers _ _ _))); [destruct r; cbn; lia|].
      pose proof (part_len (under (n_runtime k) (runtime_fields r)) (target_fields k (Session b r w)) ltac:(cbn; auto)).
      pose proof (under_len (n_runtime k) (runtime_fields r)). lia.
  - rewrite KE. cbn [snd]. apply contents_covers; [destruct (f_entry u); cbn; lia|lia].
  - rewrite KS. cbn [snd]. apply contents_covers; [cbn; lia|vm_compute; reflexivity].
Qed.
Lemma right_exact u : exact_numbers (right_numbers (len (argument_bytes (f_args u))) u) u.
Proof. destruct u as [h a tm tl c p ar t ent aps]. constructor; try reflexivity; destruct t; try reflexivity; exact Logic.I. Qed.

(** ** A call of a contract whose arguments have a wrong length *)
Definition demo_approved := Approved 1 demo_key 1 (repeat 3 64).
Definition form_of (h : list Z) (l : list raw_arg) : form :=
  Form h alice 1700000000000 1800000 (text "casper") (PClassic 2500000000 2 1) (ANamed l)
    (XStored (SD.ByHash (repeat 8 32)) VmV1) (Custom (text "mint")) [demo_approved].
Definition called (l : list raw_arg) : form := form_of (demo_hash (form_payload (right_numbers 1 (form_of (repeat 0 32) l)) (form_of (repeat 0 32) l))) l.
Definition few_args := [RawArg (text "amount") [1; 9] [8]].
Definition more_args := [RawArg (text "amount") [2; 9; 9] [8]; RawArg (text "target") (repeat 66 32) (15 :: le 4 32)].
Lemma few_readable : Forall readable few_args. Proof. constructor; [|constructor]. apply (t_flat 8 []), f_simple. left. lia. Qed.
Lemma more_readable : Forall readable more_args.
Proof. constructor; [apply (t_flat 8 []), f_simple; left; lia|]. constructor; [|constructor]. apply (t_flat 15 (le 4 32)), f_array. reflexivity. Qed.
Lemma called_ok l : Forall readable l -> form_ok (called l).
Proof.
  intros R. constructor; cbn [called form_of f_hash f_initiator f_time f_ttl f_price f_args f_target f_entry f_approvals]; try lia.
  - apply (proj1 (demo_hash32 _)).
  - right. left. split; reflexivity.
  - cbn. lia.
  - exact R.
  - split; [reflexivity|exact Logic.I].
  - reflexivity.
  - constructor; [|constructor]. split; [right; left; split; reflexivity|]. split; [left; reflexivity|reflexivity].
Qed.
Lemma called_hash l : f_hash (called l) = p_hash demo (form_payload (right_numbers 1 (called l)) (called l)).
Proof. reflexivity. Qed.
Lemma called_refuted : exists pf a b, hash32 (p_hash pf) /\
    let ka := right_numbers 1 a in let kb := right_numbers 1 b in
    form_ok a /\ numbers_ok ka a /\ f_hash a = p_hash pf (form_payload ka a) /\
    form_ok b /\ numbers_ok kb b /\ f_hash b = p_hash pf (form_payload kb b) /\
    strict a /\ strict b /\ f_args a <> f_args b /\ bytes (form_bytes ka a) /\ bytes (form_bytes kb b) /\
    forall x, look_alike pf x (1 :: form_bytes ka a) (1 :: form_bytes kb b) /\
      exists t i, tx_parse pf x (1 :: form_bytes ka a) = Ret t /\ 0 <= i < getNumItems x t /\
        tx_getItem pf x 40 (1 :: form_bytes ka a) t i = Ret (mkItem (text "Args hash") (VPaged (ST.cep57 (p_hash pf (p_hash pf [])) (p_hash pf [])))).
Proof.
  exists demo, (called few_args), (called more_args). split; [exact demo_hash32|]. cbv zeta.
  split; [apply called_ok, few_readable|]. split; [apply right_ok; [unfold word; lia|vm_compute; reflexivity]|]. split; [apply called_hash|].
  split; [apply called_ok, more_readable|]. split; [apply right_ok; [unfold word; lia|vm_compute; reflexivity]|]. split; [apply called_hash|].
  split.
  { constructor; cbn [called form_of f_initiator f_price f_args f_approvals]; [cbn; lia|auto| |repeat constructor]. repeat constructor; intros O; inversion O as [? ? E|? ? ? ? ? E|? ? ? ? E]; subst; inversion E; lia. }
  split.
  { constructor; cbn [called form_of f_initiator f_price f_args f_approvals]; [cbn; lia|auto| |repeat constructor]. repeat constructor; intros O; inversion O as [? ? E|? ? ? ? ? E|? ? ? ? E]; subst; inversion E; lia. }
  split; [discriminate|]. split; [apply bytesb_ok; vm_compute; reflexivity|]. split; [apply bytesb_ok; vm_compute; reflexivity|].
  intros x. split; [destruct x; compare|].
  destruct x; [eexists; exists 11|eexists; exists 7]; (split; [vm_compute; reflexivity|]; split; [vm_compute; split; congruence|]; vm_compute; reflexivity).
Qed.

(** ** Everything that may be wrong, at once *)
Definition odd_numbers : form -> numbers := fun u =>
  let fs := contents [[0]] in
  let make top pay := Numbers top pay (contents (initiator_fields (f_initiator u))) (contents (price_fields (f_price u)))
     3 (77, Tbl 259 [0; 1; 4000] 5) (Tbl 1 [123] 456) (Tbl 258 [7; 7] 7) (0, contents (entry_fields (f_entry u))) (2 ^ 31, contents [[0]]) in
  let pay := contents (form_fields (make fs fs) u) in
  make (contents (top_fields (make fs pay) u)) pay.
Definition odd_form (h : list Z) : form :=
  Form h (PublicKey 0 []) 1700000000000 1800000 (text "casper") (PClassic 2500000000 2 77)
    (ANamed [RawArg (text "x") [1] (19 :: 15 :: 1 :: le 4 5)])
    (XStored (SD.ByHash (repeat 8 32)) VmV1) (Custom (text "mint")) [Approved 0 [] 2 (repeat 3 64)].
Definition odd_one : form := odd_form (demo_hash (form_payload (odd_numbers (odd_form [])) (odd_form []))).
Lemma odd_form_ok : form_ok odd_one.
Proof.
  constructor; cbn [odd_one odd_form f_hash f_initiator f_time f_ttl f_price f_args f_target f_entry f_approvals]; try lia.
    - apply (proj1 (demo_hash32 _)).
    - left. auto.
    - cbn. lia.
    - cbn [form_args]. constructor; [|constructor]. unfold readable. cbn [r_ty]. apply (t_flat 19 (15 :: 1 :: le 4 5 ++ [])).
      apply f_two; [right; reflexivity|right; left; reflexivity|left; lia|left; split; reflexivity|right; split; [lia|reflexivity]].
    - split; [reflexivity|exact Logic.I].
    - reflexivity.
    - constructor; [|constructor]. split; [left; auto|]. split; [right; reflexivity|reflexivity].
Qed.
Lemma odd_numbers_ok : numbers_ok (odd_numbers odd_one) odd_one.
Proof.
  assert (CC : forall fs, (1 <=? zlen fs) && (zlen fs <=? 10) && (zlen (List.concat fs) <? 65536) = true -> covers (contents fs) fs).
  { intros fs E. apply andb_true_iff in E. destruct E as [E E3]. apply andb_true_iff in E. destruct E as [E1 E2]. apply contents_covers; lia. }
  assert (TK : forall n offs s, 0 <= n < 2 ^ 32 -> Forall word offs -> 0 <= s < 2 ^ 32 -> 1 <= n mod 256 <= 10 -> zlen offs = n mod 256 -> table_ok (Tbl n offs s)).
  { intros. constructor; assumption. }
  constructor.
    - apply CC. vm_compute. reflexivity.
    - apply CC. vm_compute. reflexivity.
    - split; [apply CC; vm_compute; reflexivity|reflexivity].
    - apply CC. vm_compute. reflexivity.
    - cbn. unfold word. lia.
    - cbn. unfold word. lia.
    - cbn. unfold word. lia.
    - cbn [odd_numbers n_sched fst]. unfold word. lia.
    - cbn [odd_one odd_form f_target]. split.
      + apply TK; [lia|repeat (apply Forall_cons; [unfold word; lia|]); apply Forall_nil|lia|lia|reflexivity].
      + exists [4000]. reflexivity.
    - cbn [odd_one odd_form f_target odd_numbers n_id]. apply TK; [lia|repeat (apply Forall_cons; [unfold word; lia|]); apply Forall_nil|lia|lia|reflexivity].
    - cbn [odd_one odd_form f_target odd_numbers n_runtime]. apply TK; [lia|repeat (apply Forall_cons; [unfold word; lia|]); apply Forall_nil|lia|lia|reflexivity].
    - apply CC. vm_compute. reflexivity.
    - apply CC. vm_compute. reflexivity.
Qed.
Lemma odd_refuted : exists pf k u, hash32 (p_hash pf) /\ form_ok u /\ numbers_ok k u /\ f_hash u = p_hash pf (form_payload k u) /\
    (exists key, f_initiator u = PublicKey 0 key) /\ (exists a g, f_price u = PClassic a g 77) /\
    n_args k <> len (argument_bytes (f_args u)) /\ fst (n_target k) <> len (under (snd (n_target k)) (target_fields k (f_target u))) /\
    fst (n_entry k) = 0 /\ fst (n_sched k) = 2 ^ 31 /\
    (exists i r, f_target u = XStored i r /\ ~ starts (n_id k) (id_fields i) /\ ~ starts (n_runtime k) (runtime_fields r) /\
       ~ starts (snd (n_target k)) (target_fields k (f_target u))) /\
    (exists l, f_args u = ANamed l /\ Exists (fun r => odd_type (r_ty r)) l) /\
    Exists (fun a => p_alg a = 0 /\ p_sigalg a = 2) (f_approvals u) /\
    bytes (form_bytes k u) /\ no_leap (form_bytes k u) /\ forall x, accepted pf x (1 :: form_bytes k u).
Proof.
  exists demo, (odd_numbers odd_one), odd_one. split; [exact demo_hash32|]. split; [exact odd_form_ok|]. split; [exact odd_numbers_ok|].
  split; [reflexivity|]. split; [eexists; reflexivity|]. split; [eexists _, _; reflexivity|].
  split; [vm_compute; congruence|]. split; [vm_compute; congruence|]. split; [reflexivity|]. split; [reflexivity|].
  split.
  { eexists _, _. split; [reflexivity|]. split; [|split]; intros [_ (m & E)]; vm_compute in E; discriminate E. }
  split.
  { eexists. split; [reflexivity|]. constructor. apply o_early. apply (e_two 19 1 (le 4 5) []); [right; reflexivity|left; lia|left; split; reflexivity|right; split; [lia|reflexivity]]. }
  split; [constructor; split; reflexivity|]. split; [apply bytesb_ok; vm_compute; reflexivity|]. split; [apply no_ff_leap; vm_compute; reflexivity|].
  intros x. apply taken_ok. destruct x; vm_compute; reflexivity.
Qed.

(** ** Ordinary transactions *)
Lemma form_case n x : exists data v, data = enc_transaction (t_native n) /\ bytes data /\ zlen data < 65472 /\ no_leap data /\ tx_parse demo x (1 :: data) = Ret (TV1 v).
Proof.
  exists (enc_transaction (t_native n)). destruct n, x; eexists; (split; [reflexivity|]); (split; [apply bytesb_ok; vm_compute; reflexivity|]);
  (split; [vm_compute; reflexivity|]); (split; [apply no_ff_leap; vm_compute; reflexivity|]); vm_compute; reflexivity.
Qed.
Lemma form_encoding_case : exists u, let k := right_numbers (len (argument_bytes (f_args u))) u in
  form_ok u /\ strict u /\ exact_numbers k u /\ bytes (form_bytes k u).
Proof.
  exists (called more_args). cbv zeta. split; [apply called_ok, more_readable|]. split; [|split; [apply right_exact|apply bytesb_ok; vm_compute; reflexivity]].
  constructor; cbn [called form_of f_initiator f_price f_args f_approvals]; [cbn; lia|auto| |repeat constructor]. repeat constructor; intros O; inversion O as [? ? E|? ? ? ? ? E|? ? ? ? E]; subst; inversion E; lia.
Qed.
Lemma v1_trailing_case x n : exists lines, good_transaction (p_hash demo) (t_native n) /\ review (p_hash demo) x (t_native n) = Some lines /\
  xexpert_ok x (p_time demo) (x_payload (t_native n)) /\ before_args (t_native n) < 256 /\ zlen (enc_transaction (t_native n) ++ odd_tail) < 65535.
Proof.
  destruct (native_case x n) as (G & E & B & lines & R). exists lines. split; [exact G|]. split; [exact R|]. split; [exact E|]. split; [exact B|]. destruct n; vm_compute; reflexivity.
Qed.
