(** Refused and accepted deploys. *)
From Verif Require Import Base Zxlib Crypto Utils RuntimeArg Deploy DeployUI TxV1 TxV1UI Parser BaseFacts Spec SpecText SpecDeploy SpecRaw SpecBlind SpecVerdict Exec ArgsFacts ReaderFacts TextFacts Shows DeployArgs SessionFacts ReviewFacts Demo DeployCases WitDeploy BlindReview BlindFacts WitBlind VerdictFacts VerdictAuction.
Import S ST SD SB SY.

Definition odd_heir := Arg (text "new_validator") (le 8 5) (Prim 5).
Definition wrong_hash : list Z := repeat 9 32.
Definition arg_auction (nm : list Z) := Arg (text "auction") (lv nm) (Prim 10).
Definition odd_auction := Arg (text "auction") (le 8 5) (Prim 5).
(** The bytes before the payment. *)
Definition demo_front : list Z := enc_header demo_head ++ wrong_hash.
Ltac good_args := apply (forallb_Forall arg_b); [intros a Ha; unfold arg_b in Ha; bools; split; [assumption|apply name_b_ok; assumption]|vm_compute; reflexivity].

(** Payments: none, two, another type, another name. *)
Lemma payment_case : good_header demo_head /\ S.len wrong_hash = 32 /\ hash32 (p_hash demo) /\
  Forall (fun lc => let data := enc_header demo_head ++ wrong_hash ++ (0 :: lv [1; 2; 3] ++ enc_args (fst lc)) ++ [7; 7] in
    Forall good_arg (fst lc) /\ bytes data /\ S.len data < 65535 /\ payment_refusal (fst lc) = Some (snd lc))
  [([], Number_of); ([arg_amount; arg_target], No_amount); ([odd_amount], No_amount); ([arg_target], No_amount)].
Proof.
  split; [exact demo_head_good|]. split; [reflexivity|]. split; [exact demo_hash32|].
  repeat (constructor; [cbv zeta; cbn [fst snd]; split; [good_args|split; [demo_bytes|split; [vm_compute; reflexivity|vm_compute; reflexivity]]]|]).
  constructor.
Qed.
Lemma type_case : Forall (fun t => let data := enc_header demo_head ++ wrong_hash ++ t :: [7; 7] in
    0 < t < 256 /\ bytes data /\ S.len data < 65535) [1; 5; 6; 255] /\
  Forall (fun t => let data := enc_header demo_head ++ wrong_hash ++ enc_payment demo_pay ++ t :: [7; 7] in
    5 < t < 256 /\ bytes data /\ S.len data < 65535) [6; 7; 255].
Proof. split; repeat (constructor; [cbv zeta; split; [lia|split; [demo_bytes|vm_compute; reflexivity]]|]); constructor. Qed.

Ltac code_case := first [exact I | let a := fresh in let Q := fresh in let T := fresh in
  intros a Q T; vm_compute in Q; first [discriminate Q | injection Q as <-; discriminate T | exists (skipn 4 (a_val a)); injection Q as <-; vm_compute; reflexivity]].
(** Sessions, refused for each of the reasons, with a wrong hash. *)
Definition refused_sessions : list (session * reason) :=
  [(Stored (ByName (text "auction")) (text "redelegate") [arg_amount], Missing);
   (Stored (ByHash (repeat 8 32)) (text "redelegate") [odd_heir], Other_type);
   (Module (repeat 7 50) [odd_heir], Other_type); (Module (repeat 7 50) [odd_auction], Other_type);
   (Module (repeat 7 50) [arg_auction (repeat 65 97); odd_heir], Too_long); (Module (repeat 7 50) [arg_auction (repeat 65 96); odd_heir], Other_type);
   (SD.Transfer [], Missing); (SD.Transfer [odd_amount], Other_type); (SD.Transfer [arg_amount; arg_target], Number_of)].
Lemma session_case : Forall (fun ic => let i := fst ic in let data := enc_header demo_head ++ wrong_hash ++ enc_payment demo_pay ++ enc_session i ++ demo_tail in
    fit i /\ plain_code i /\ SR.trailing false i 1 demo_tail /\ bytes data /\ S.len data < 65535 /\ session_refusal i = Some (snd ic)) refused_sessions.
Proof.
  repeat (constructor; [cbv zeta; cbn [fst snd]; split;
    [split; [good_args|first [exact I | split; [first [reflexivity|apply name_b_ok; vm_compute; reflexivity]|apply name_b_ok; vm_compute; reflexivity]]]
    |split; [code_case|split; [apply demo_trailing|split; [demo_bytes|split; [vm_compute; reflexivity|vm_compute; reflexivity]]]]]|]).
  constructor.
Qed.

(** The deploys with the right hashes. *)
Lemma demo_data i : let h := over demo_head (demo_hash (enc_payment demo_pay ++ enc_session i)) in
  let data := enc_header h ++ demo_hash (enc_header h) ++ enc_payment demo_pay ++ enc_session i ++ demo_tail in
  bytes (enc_session i) -> zlen (enc_session i) < 60500 -> bytes data /\ S.len data < 65535.
Proof.
  intros h data Bi Li. destruct (demo_hash32 (enc_payment demo_pay ++ enc_session i)) as [L1 B1]. destruct (demo_hash32 (enc_header h)) as [L2 B2].
  change (p_hash demo) with demo_hash in *. unfold data. unfold h in L2, B2 |- *. revert L1 B1 L2 B2. generalize (demo_hash (enc_payment demo_pay ++ enc_session i)) as b. intros b L1 B1. generalize (demo_hash (enc_header (over demo_head b))) as c. intros c L2 B2.
  assert (E : enc_header (over demo_head b) = ([h_alg demo_head] ++ h_key demo_head ++ le 8 (h_time demo_head) ++ le 8 (h_ttl demo_head) ++ le 8 (h_gas demo_head)) ++ b ++ (le 4 (S.len (h_deps demo_head)) ++ List.concat (h_deps demo_head) ++ lv (h_chain demo_head))).
  { unfold enc_header, over. cbn [h_alg h_key h_time h_ttl h_gas h_bodyhash h_deps h_chain]. rewrite <- !app_assoc. reflexivity. }
  split.
  - rewrite E. repeat (apply bytes_app; split); first [exact B1 | exact B2 | exact Bi | demo_bytes].
  - pose proof (demo_small _ (zlen_nonneg (enc_session i)) Li) as Q. change (S.len (enc_header (over demo_head b) ++ c ++ enc_payment demo_pay ++ enc_session i ++ demo_tail)) with (zlen (enc_header (over demo_head b) ++ c ++ enc_payment demo_pay ++ enc_session i ++ demo_tail)).
    rewrite !zlen_app. replace (zlen (enc_header (over demo_head b))) with (zlen (enc_header demo_head)); [lia|].
    rewrite E. change (enc_header demo_head) with (([h_alg demo_head] ++ h_key demo_head ++ le 8 (h_time demo_head) ++ le 8 (h_ttl demo_head) ++ le 8 (h_gas demo_head)) ++ h_bodyhash demo_head ++ (le 4 (S.len (h_deps demo_head)) ++ List.concat (h_deps demo_head) ++ lv (h_chain demo_head))).
    rewrite !(zlen_app _ (_ ++ _ ++ _ ++ _)). rewrite !zlen_app, L1. reflexivity.
Qed.
(** The premises that do not depend on the case. *)
Definition sized (x : bool) (i : session) : Prop :=
  let h := over demo_head (demo_hash (enc_payment demo_pay ++ enc_session i)) in
  let data := enc_header h ++ demo_hash (enc_header h) ++ enc_payment demo_pay ++ enc_session i ++ demo_tail in
    good_header h /\ S.len (p_amount demo_pay) <= 64 /\ fit i /\ plain_code i /\ SR.trailing x i 1 demo_tail /\
    h_bodyhash h = demo_hash (enc_payment demo_pay ++ enc_session i) /\ expert_ok x (p_time demo) h /\
    bytes data /\ S.len data < 65535 /\ session_refusal i = None /\ sound (args_of i).
Lemma sized_by x i : fit i -> plain_code i -> bytes (enc_session i) -> zlen (enc_session i) < 60500 -> session_refusal i = None -> sound (args_of i) -> sized x i.
Proof.
  intros F P B L R S. destruct (demo_data i B L) as [Q1 Q2]. unfold sized. cbv zeta. split.
  { pose proof demo_head_good as G. destruct G. constructor; auto. }
  split; [vm_compute; discriminate|]. split; [exact F|]. split; [exact P|]. split; [apply demo_trailing|]. split; [reflexivity|].
  split; [apply demo_expert; reflexivity|]. auto.
Qed.
Ltac sound_args := constructor; intros a E; vm_compute in E; first [discriminate E | injection E as <-; vm_compute; intros; discriminate].
Ltac size := apply sized_by; [
  split; [good_args|first [exact I | split; [first [reflexivity|apply name_b_ok; vm_compute; reflexivity|split; [apply name_b_ok; vm_compute; reflexivity|cbn; lia]]|apply name_b_ok; vm_compute; reflexivity]]]
  | code_case | demo_bytes | vm_compute; reflexivity | vm_compute; reflexivity | sound_args].
(** Sessions of all kinds that are not refused. *)
Definition accepted_sessions : list session :=
  [Stored (ByName (text "vault")) (text "withdraw_all") [odd_amount; arg_target];
   Stored (ByHash (repeat 8 32)) (text "delegate") [arg_amount; arg_validator; arg_delegator; arg_note 65; arg_target];
   Stored (ByNameV (text "vault") (Some 3)) (text "deposit") [arg_amount; arg_target];
   Module (repeat 7 5000) [odd_amount]; Module (repeat 7 20) [arg_amount];
   Module (repeat 7 20) [arg_amount; arg_validator; arg_delegator; arg_auction (text "undelegate"); arg_target];
   Module (repeat 7 20) [odd_amount; arg_auction (text "delegate")]; Module (repeat 7 20) [arg_auction (text "swap"); odd_amount];
   SD.Transfer [arg_amount; arg_note 65]; SD.Transfer [arg_target; arg_id; arg_amount]].
Lemma accepted_case x : Forall (fun i => sized x i /\ gathered i /\ short_code x i) accepted_sessions.
Proof.
  repeat (constructor; [split; [size|split]|]).
  all: try apply Forall_nil.
  all: cbn [gathered short_code]; lazymatch goal with
    | |- True => exact I
    | |- _ = true -> _ <= _ => first [destruct x; intros E; vm_compute in E; discriminate E | intros _; vm_compute; discriminate]
    | |- _ = true -> _ = true -> _ => intros E1 E2; first
        [ vm_compute in E1; discriminate E1 | vm_compute in E2; discriminate E2
        | eexists; split; [vm_compute; reflexivity|split; [reflexivity|discriminate]] ]
    | |- _ => intros E1 o E; first
        [ vm_compute in E1; discriminate E1 | vm_compute in E; discriminate E
        | vm_compute in E; injection E as <-; split; [reflexivity|discriminate] ]
    end.
Qed.
(** The same with a wrong hash. *)
Lemma hash_case : Forall (fun i =>
  let data := enc_header demo_head ++ wrong_hash ++ enc_payment demo_pay ++ enc_session i ++ demo_tail in
    fit i /\ plain_code i /\ SR.trailing false i 1 demo_tail /\ bytes data /\ S.len data < 65535 /\ session_refusal i = None /\
    wrong_hash <> demo_hash (enc_header demo_head)) accepted_sessions.
Proof.
  pose proof (accepted_case false) as AC. rewrite Forall_forall in *. intros i I. specialize (AC i I). unfold sized in AC. cbv zeta in *.
  destruct AC as ((_ & _ & F & P & T & _ & _ & B & L & R & _) & _).
  split; [exact F|]. split; [exact P|]. split; [exact T|]. split; [|split; [|split; [exact R|]]].
  - rewrite !bytes_app in *. split; [demo_bytes|]. split; [demo_bytes|]. tauto.
  - change (@S.len Z) with (@zlen Z) in *. rewrite !zlen_app in *.
    replace (zlen (enc_header (over demo_head (demo_hash (enc_payment demo_pay ++ enc_session i))))) with (zlen (enc_header demo_head)) in L.
    + rewrite (proj1 (demo_hash32 _)) in L. change (zlen wrong_hash) with 32. exact L.
    + cbn [demo_head over]. unfold enc_header. cbn [h_alg h_key h_time h_ttl h_gas h_bodyhash h_deps h_chain]. unfold zlen. f_equal.
  - vm_compute. discriminate.
Qed.

(** Delegations with another argument in between, or the key new_validator last of five. *)
Definition arg_heir := Arg (text "new_validator") (1 :: repeat 4 32) (Prim 22).
Definition scattered : list session :=
  [Stored (ByHash (repeat 8 32)) (text "delegate") [arg_amount; arg_note 65; arg_validator; arg_delegator];
   Stored (ByNameV (text "vault") (Some 3)) (text "undelegate") [arg_note 65; arg_amount; arg_validator; arg_delegator];
   Stored (ByName (text "vault")) (text "redelegate") [arg_delegator; arg_amount; arg_validator; arg_note 65; arg_heir];
   Module (repeat 7 20) [arg_auction (text "delegate"); arg_delegator; arg_amount; arg_validator];
   Module (repeat 7 20) [arg_amount; arg_validator; arg_delegator; arg_auction (text "redelegate")];
   Module (repeat 7 20) [arg_amount; arg_auction (text "swap")]; Module (repeat 7 20) [arg_auction (text "delegate"); arg_validator]].
Definition legible_bool (l : list arg) : bool := match l with a :: _ => (3 <=? S.len (a_name a)) && forallb (fun b => b <? 128) (a_name a) | [] => true end.
Lemma legible_b l : legible_bool l = true -> legible l.
Proof. destruct l as [|a l]; [exact (fun _ => I)|]. cbn. intros Q. bools. split; [lia|]. apply (forallb_Forall (fun b => b <? 128)); [intros b; lia|assumption]. Qed.
Lemma scattered_case x : Forall (fun i => sized x i /\ short_code x i /\ (misread i = true -> legible (args_of i)) /\ ~ gathered i) scattered.
Proof.
  repeat (constructor; [split; [size|split; [first [exact I | intros E; vm_compute; discriminate]|
    split; [first [intros E; vm_compute in E; discriminate E | intros _; apply legible_b; vm_compute; reflexivity]|]]]|]).
  all: try apply Forall_nil.
  all: cbn [gathered]; intros Q; first [destruct (Q eq_refl _ eq_refl) as [Q1 Q2] | destruct (Q eq_refl eq_refl) as (op & AO & Q1 & Q2); vm_compute in AO; first [discriminate AO | injection AO as <-]]; first [discriminate Q1 | discriminate (Q2 eq_refl)].
Qed.

(** Code of 33 bytes: where its hash is shown, and where it is not. *)
Definition long_named := Module (repeat 7 33) [arg_amount; arg_validator; arg_delegator; arg_auction (text "undelegate"); arg_target].
Definition long_codes : list (bool * session) := [(false, Module (repeat 7 33) [arg_amount]); (true, long_named)].
Lemma long_sized x : Forall (sized x) [Module (repeat 7 33) [arg_amount]; long_named].
Proof. repeat (constructor; [size|]). constructor. Qed.
Lemma long_case : Forall (fun xi => sized (fst xi) (snd xi) /\ ~ short_code (fst xi) (snd xi)) long_codes.
Proof.
  pose proof (long_sized false) as A. pose proof (long_sized true) as B. inversion_clear A. inversion_clear B. inversion_clear H0. inversion_clear H2.
  constructor; [|constructor; [|constructor]]; (split; [assumption|]); intros Q; specialize (Q eq_refl); vm_compute in Q; apply Q; reflexivity.
Qed.
Lemma quiet_case : sized false long_named /\ gathered long_named /\ short_code false long_named /\ ~ short_code true long_named.
Proof.
  split; [pose proof (long_sized false) as A; inversion_clear A; inversion_clear H0; assumption|].
  split; [intros _ _; eexists; split; [vm_compute; reflexivity|split; [reflexivity|discriminate]]|].
  split; [intros E; vm_compute in E; discriminate E|]. intros Q; specialize (Q eq_refl); vm_compute in Q; apply Q; reflexivity.
Qed.

(** Code that says it delegates, with an amount of another type: in normal mode
    the same lines whatever it is. *)
Definition deed_args := [odd_amount; arg_auction (text "delegate")].
Lemma deed_refuted :
  exists pf h p l n r rest, hash32 (p_hash pf) /\ In (ln "Type" (Words (text "Delegate"))) rest /\
    forall w, bytes w -> zlen w < 60000 -> SR.trailing false (SD.Module w l) n r /\
      reviews pf false (0 :: signed (p_hash pf) h p (SD.Module w l) r) (ln "Txn hash" (Hex (signed_hash (p_hash pf) h p (SD.Module w l))) :: rest).
Proof.
  exists demo, demo_head, demo_pay, deed_args, 1, demo_tail, (blank false demo_head demo_pay "Delegate" 1 []).
  split; [exact demo_hash32|]. split; [left; reflexivity|]. intros w B L. split; [apply demo_trailing|].
  assert (ZL : zlen (enc_session (SD.Module w deed_args)) < 60500).
  { cbn [enc_session]. rewrite zlen_cons, zlen_app, zlen_lv. assert (zlen (enc_args deed_args) < 400) by (vm_compute; reflexivity). lia. }
  apply (signed_deed demo false demo_head demo_pay w deed_args 1 demo_tail); auto.
  - exact demo_hash32.
  - exact demo_head_good.
  - vm_compute; discriminate.
  - split; [good_args|exact I].
  - code_case.
  - apply demo_trailing.
  - demo_bytes.
  - demo_bytes.
  - cbn [enc_session]. constructor; [unfold byte; lia|]. apply bytes_app. split; [|demo_bytes].
    unfold lv. apply bytes_app. split; [apply le_bytes|exact B].
  - demo_bytes.
  - apply demo_small; [apply zlen_nonneg|exact ZL].
  - reflexivity.
  - discriminate.
  - apply demo_expert. reflexivity.
Qed.
Lemma deed_case x : sized x (SD.Module (repeat 7 20) deed_args) /\ has "auction" deed_args = true /\ ill_typed deed_args /\ zlen (repeat 7 20) <= 32.
Proof.
  pose proof (accepted_case x) as AC. rewrite Forall_forall in AC.
  split; [|split; [reflexivity|split; [reflexivity|vm_compute; discriminate]]].
  assert (I : In (SD.Module (repeat 7 20) deed_args) accepted_sessions) by (do 6 right; left; reflexivity).
  exact (proj1 (AC _ I)).
Qed.
