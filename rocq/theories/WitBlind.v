(** Deploys of which the review does not tell what they do. *)
From Verif Require Import Base Zxlib Crypto Utils RuntimeArg Deploy DeployUI TxV1 TxV1UI Parser BaseFacts Spec SpecText SpecDeploy SpecRaw SpecBlind Exec ArgsFacts ReaderFacts TextFacts Shows DeployArgs SessionFacts ReviewFacts Demo DeployCases WitDeploy BlindReview BlindFacts.
Import S ST SD SB.

(** An amount of type U64. *)
Definition odd_amount := Arg (text "amount") (le 8 5) (Prim 5).
Definition demo_head : header := Header 1 demo_key 1700000000000 1800000 1 (repeat 0 32) [repeat 3 32] (text "casper").
Definition demo_tail : list Z := le 4 1 ++ List.concat (List.map enc_approval demo_appr).
Lemma demo_head_good : good_header demo_head.
Proof. constructor; try (cbn; auto; lia); apply name_b_ok; vm_compute; reflexivity. Qed.
Lemma demo_trailing x i : SR.trailing x i 1 demo_tail.
Proof.
  constructor; [unfold SL.word; lia|intros _; eexists; reflexivity|]. intros w l _. eexists. split; [reflexivity|].
  split; [lia|]. split; [vm_compute; discriminate|]. intros b q E. left. apply (f_equal (hd 0)) in E. symmetry in E. exact E.
Qed.
Lemma ill_first a m : a_name a = text "amount" -> is_amount_type (a_ty a) = false -> ill_typed (a :: m).
Proof.
  intros N T. unfold ill_typed, plain_types, typed_if_present, find_arg. cbn [lookup]. rewrite N.
  destruct (list_eq_dec Z.eq_dec (text "amount") (text "amount")) as [_|X]; [|contradiction]. rewrite T. reflexivity.
Qed.
Ltac demo_bytes := apply bytesb_ok; vm_compute; reflexivity.
Lemma zlen_len {A} (l : list A) : S.len l = zlen l. Proof. reflexivity. Qed.
Lemma demo_small n : 0 <= n -> n < 60500 -> zlen (enc_header demo_head) + 32 + zlen (enc_payment demo_pay) + n + zlen demo_tail < 65535.
Proof.
  intros N L. assert (E : zlen (enc_header demo_head) + zlen (enc_payment demo_pay) + zlen demo_tail < 5000) by (vm_compute; reflexivity). lia.
Qed.

Lemma demo_blank x i s :
  fit i -> bytes (enc_session i) -> zlen (enc_session i) < 60500 -> bare x i s ->
  reviews demo x (0 :: signed demo_hash demo_head demo_pay i demo_tail)
    (ln "Txn hash" (Hex (signed_hash demo_hash demo_head demo_pay i)) :: blank x demo_head demo_pay (title i) 1 s).
Proof.
  intros F B L R. apply (signed_blank demo); auto.
  - exact demo_hash32.
  - exact demo_head_good.
  - vm_compute; discriminate.
  - apply demo_trailing.
  - demo_bytes.
  - demo_bytes.
  - demo_bytes.
  - apply demo_small; [apply zlen_nonneg|exact L].
  - apply demo_expert. reflexivity.
Qed.

(** Code: the same lines whatever it is, in both modes. *)
Lemma code_refuted :
  exists pf h p l n r rest, hash32 (p_hash pf) /\
    forall w, bytes w -> zlen w < 60000 -> forall x,
      SR.trailing x (Module w l) n r /\
      reviews pf x (0 :: signed (p_hash pf) h p (Module w l) r) (ln "Txn hash" (Hex (signed_hash (p_hash pf) h p (Module w l))) :: rest x).
Proof.
  exists demo, demo_head, demo_pay, [odd_amount], 1, demo_tail, (fun x => blank x demo_head demo_pay "Contract execution" 1 []).
  split; [exact demo_hash32|]. intros w B L x. split; [apply demo_trailing|].
  apply (demo_blank x (SD.Module w [odd_amount])).
  - split; [|exact I]. constructor; [|constructor]. split; [reflexivity|]. apply name_b_ok. vm_compute; reflexivity.
  - cbn [enc_session]. constructor; [unfold byte; lia|]. apply bytes_app. split; [|demo_bytes].
    unfold lv. apply bytes_app. split; [apply le_bytes|exact B].
  - cbn [enc_session]. rewrite zlen_cons, zlen_app, zlen_lv. assert (zlen (enc_args [odd_amount]) < 100) by (vm_compute; reflexivity). lia.
  - apply b_code; [reflexivity|reflexivity|]. split; [discriminate|reflexivity].
Qed.
(** Contracts: shown as a delegation, whatever contract is called with whatever
    arguments after the first, in normal mode; in expert mode the contract is
    shown, and nothing of the arguments. *)
Lemma call_refuted :
  exists pf h p n r rest aim a, hash32 (p_hash pf) /\ In (ln "Type" (Words (text "Delegate"))) rest /\
    forall t m, let i := Stored t (text "delegate") (a :: m) in fit i -> bytes (enc_session i) -> zlen (enc_session i) < 60000 ->
      reviews pf false (0 :: signed (p_hash pf) h p i r) (ln "Txn hash" (Hex (signed_hash (p_hash pf) h p i)) :: rest) /\
      reviews pf true (0 :: signed (p_hash pf) h p i r) (ln "Txn hash" (Hex (signed_hash (p_hash pf) h p i)) :: aim t) /\
      SR.trailing true i n r.
Proof.
  exists demo, demo_head, demo_pay, 1, demo_tail, (blank false demo_head demo_pay "Delegate" 1 []),
    (fun t => blank true demo_head demo_pay "Delegate" 1 (target_review true t)), odd_amount.
  split; [exact demo_hash32|]. split; [left; reflexivity|]. intros t m i F B L.
  assert (IL : ill_typed (odd_amount :: m)) by (apply ill_first; reflexivity).
  assert (TT : title i = "Delegate"%string) by (unfold title, i; unfold ill_typed in IL; rewrite IL; reflexivity).
  assert (BX : forall x, bare x i (if x then target_review true t else [])).
  { intros x. pose proof (b_call x t (text "delegate") (odd_amount :: m) IL) as Q.
    change (entry_line (text "delegate")) with (@nil line) in Q. rewrite app_nil_r in Q. apply Q. discriminate. }
  pose proof (demo_blank false i _ F B ltac:(lia) (BX false)) as R1. pose proof (demo_blank true i _ F B ltac:(lia) (BX true)) as R2.
  rewrite TT in R1, R2. split; [exact R1|]. split; [exact R2|apply demo_trailing].
Qed.
(** Sessions of the four kinds. *)
Lemma bare_case : forall x,
  (exists s, bare x (Stored (ByName (text "vault")) (text "withdraw_all") [odd_amount; arg_target]) s) /\
  (exists s, bare x (Module (repeat 7 5000) [odd_amount]) s) /\
  (exists s, bare x (SD.Transfer [arg_amount; arg_note 65; arg_target]) s) /\
  (exists s, bare x (Stored (ByHash (repeat 8 32)) (text "delegate") ([arg_amount; arg_validator; arg_delegator] ++ [arg_note 65; arg_target])) s).
Proof.
  intros x. split; [|split; [|split]]; eexists.
  - apply b_call; [reflexivity|discriminate].
  - apply b_code; [reflexivity|reflexivity|]. split; [discriminate|reflexivity].
  - apply b_transfer. split; [reflexivity|vm_compute; reflexivity].
  - eapply b_more; [reflexivity|reflexivity|reflexivity|vm_compute; reflexivity].
Qed.
(** The premises of the reviews hold of a withdrawal from a vault, and of 5000
    bytes of code. *)
Lemma blank_case x : Forall (fun i =>
  fit i /\ SR.trailing x i 1 demo_tail /\ bytes (enc_session i) /\ exists s, bare x i s /\
  let h := over demo_head (demo_hash (enc_payment demo_pay ++ enc_session i)) in
  good_header h /\ h_bodyhash h = demo_hash (enc_payment demo_pay ++ enc_session i) /\ expert_ok x (p_time demo) h /\
  bytes (enc_header h ++ demo_hash (enc_header h) ++ enc_payment demo_pay ++ enc_session i ++ demo_tail) /\
  zlen (enc_header h ++ demo_hash (enc_header h) ++ enc_payment demo_pay ++ enc_session i ++ demo_tail) < 65535)
  [Stored (ByName (text "vault")) (text "withdraw_all") [odd_amount; arg_target]; Module (repeat 7 5000) [odd_amount]].
Proof.
  destruct (bare_case x) as ((s1 & B1) & (s2 & B2) & _).
  constructor; [|constructor; [|constructor]].
  - split; [|split; [apply demo_trailing|split; [demo_bytes|exists s1; split; [exact B1|]]]].
    + split; [apply (forallb_Forall arg_b); [intros a Ha; unfold arg_b in Ha; bools; split; [assumption|apply name_b_ok; assumption]|vm_compute; reflexivity]|].
      split; apply name_b_ok; vm_compute; reflexivity.
    + cbv zeta. split; [|split; [reflexivity|split; [apply demo_expert; reflexivity|split; [demo_bytes|vm_compute; reflexivity]]]].
      pose proof demo_head_good as G. destruct G. constructor; auto.
  - split; [|split; [apply demo_trailing|split; [demo_bytes|exists s2; split; [exact B2|]]]].
    + split; [|exact I]. constructor; [|constructor]. split; [reflexivity|]. apply name_b_ok. vm_compute; reflexivity.
    + cbv zeta. split; [|split; [reflexivity|split; [apply demo_expert; reflexivity|split; [demo_bytes|vm_compute; reflexivity]]]].
      pose proof demo_head_good as G. destruct G. constructor; auto.
Qed.
