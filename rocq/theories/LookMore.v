(** More about deploys that look alike. *)
From Verif Require Import Base Zxlib Crypto Utils RuntimeArg Deploy DeployUI TxV1 TxV1UI Parser BaseFacts Spec SpecText SpecDeploy SpecTx SpecLook Exec ArgsFacts ReaderFacts TextFacts Shows DeployArgs SessionFacts ReviewFacts Demo DeployCases WitDeploy TxShow LookFacts LookTx WitLook.
Import S ST SD SK.

(** Lines with the same texts: the same review. *)
Lemma same_texts pf x da db la lb A B : reviews pf x da (la :: A) -> reviews pf x db (lb :: B) ->
  Forall2 (same_line (p_hash pf) (p_time pf)) A B -> look_alike pf x da db.
Proof.
  intros (ta & Pa & Na & Da) (tb & Pb & Nb & Db) F. exists ta, tb. rewrite zlen_cons in Na, Nb.
  pose proof (Forall2_length _ _ _ F) as L.
  split; [exact Pa|]. split; [exact Pb|]. split; [unfold zlen in *; lia|]. intros i Hi.
  assert (X : exists k a b, i = Z.of_nat (Datatypes.S k) /\ nth_error A k = Some a /\ nth_error B k = Some b).
  { exists (Z.to_nat (i - 1)). destruct (nth_error A (Z.to_nat (i - 1))) as [a|] eqn:E.
    - destruct (nth_error B (Z.to_nat (i - 1))) as [b|] eqn:E'; [exists a, b; split; [lia | split; congruence]|].
      apply nth_error_None in E'. unfold zlen in Na, Nb. lia.
    - apply nth_error_None in E. unfold zlen in Na. lia. }
  destruct X as (k & a & b & -> & Ea & Eb).
  destruct (Da (Datatypes.S k) a Ea 40) as ([ka va] & Ga & Ka & Ra). destruct (Db (Datatypes.S k) b Eb 40) as ([kb vb] & Gb & Kb & Rb).
  assert (S : same_line (p_hash pf) (p_time pf) a b).
  { clear - F Ea Eb. revert k Ea Eb. induction F as [|p q A B S F IH]; intros [|k] Ea Eb; try discriminate Ea.
    - injection Ea as <-. injection Eb as <-. exact S.
    - eapply IH; eauto. }
  destruct S as (K & d & R1 & R2). rewrite Ga, Gb. cbn [ikey ival] in *.
  rewrite (renders_fun _ _ _ _ _ Ra R1), (renders_fun _ _ _ _ _ Rb R2). congruence.
Qed.

Lemma line_refl pf x d l lines : reviews pf x d lines -> In l lines -> same_line (p_hash pf) (p_time pf) l l.
Proof.
  intros (t & _ & _ & D) I. apply In_nth_error in I. destruct I as (i & E). destruct (D i l E 40) as (it & _ & _ & R).
  split; [reflexivity|]. exists (ival it). auto.
Qed.

(** Deploys with the same session and the same context look alike, whatever
    else they contain. *)
Lemma context_unseen pf x a b la : hash32 (p_hash pf) -> good_deploy (p_hash pf) a -> good_deploy (p_hash pf) b ->
  expert_ok x (p_time pf) (d_header a) -> expert_ok x (p_time pf) (d_header b) ->
  review (p_hash pf) x a = Some la -> d_session a = d_session b -> same_context (p_time pf) x a b ->
  look_alike pf x (enc_tx a) (enc_tx b).
Proof.
  intros Hh Ga Gb Xa Xb Ra ES [C1 [C2 C3] C4 C5].
  assert (Rb : exists lb, review (p_hash pf) x b = Some lb).
  { unfold review in *. rewrite <- ES. destruct (session_review (p_hash pf) x (d_session a)); [eauto | discriminate Ra]. }
  destruct Rb as (lb & Rb). pose proof (deploy_review pf x a la Hh Ga Ra Xa) as Va. pose proof (deploy_review pf x b lb Hh Gb Rb Xb) as Vb.
  unfold review in Ra, Rb. rewrite <- ES in Rb. destruct (session_review (p_hash pf) x (d_session a)) as [s|]; [|discriminate Ra].
  some_inj Ra. some_inj Rb.
  pose proof (fun l => line_refl pf x _ l _ Va) as La. pose proof (fun l => line_refl pf x _ l _ Vb) as Lb.
  unfold around in *. cbn [app] in *. eapply same_texts; [exact Va | exact Vb|]. rewrite ES, C1, C2, C3, C4 in *.
  assert (REFL : forall l, (forall y, In y l -> In y s) -> Forall2 (same_line (p_hash pf) (p_time pf)) l l).
  { induction l as [|y l IH]; intros IN; constructor; [|apply IH; intros; apply IN; right; auto].
    apply La. do 4 right. apply in_or_app. right. right. apply in_or_app. left. apply IN. left. reflexivity. }
  assert (HD : forall l m, Forall2 (same_line (p_hash pf) (p_time pf)) l m -> forall y, same_line (p_hash pf) (p_time pf) y y -> Forall2 (same_line (p_hash pf) (p_time pf)) (y :: l) (y :: m)) by (intros; constructor; auto).
  do 3 (apply HD; [|apply La; cbn; tauto]).
  destruct x.
  - destruct (C5 eq_refl) as (T & TT & G & D & N). rewrite TT, G, D, N in *. cbn [app] in *. constructor.
    + split; [reflexivity|]. destruct (Xa eq_refl) as [_ (t & E)]. cbn [ln snd renders].
      eexists. split; exists t; split; try reflexivity; congruence.
    + do 4 (apply HD; [|apply La; cbn; tauto]). apply Forall2_app; [apply REFL; auto|]. apply HD; [constructor|].
      apply La. cbn. do 9 right. apply in_or_app. right. left. reflexivity.
  - cbn [app] in *. apply HD; [|apply La; cbn; tauto]. rewrite app_nil_r in *. apply REFL; auto.
Qed.

(** Payment code is never visible. *)
Lemma payment_unseen pf x a b la : hash32 (p_hash pf) -> good_deploy (p_hash pf) a -> good_deploy (p_hash pf) b ->
  expert_ok x (p_time pf) (d_header a) -> expert_ok x (p_time pf) (d_header b) ->
  review (p_hash pf) x a = Some la -> d_session a = d_session b -> same_context (p_time pf) x a b ->
  p_code (d_payment a) = [] -> p_code (d_payment b) <> [] ->
  look_alike pf x (enc_tx a) (enc_tx b).
Proof. intros. eapply context_unseen; eauto. Qed.

(** Two versions that are both given. *)
Lemma versions_seen pf a b t u ep l ep' l' la lb m n : hash32 (p_hash pf) ->
  good_deploy (p_hash pf) a -> good_deploy (p_hash pf) b ->
  expert_ok true (p_time pf) (d_header a) -> expert_ok true (p_time pf) (d_header b) ->
  d_session a = Stored t ep l -> d_session b = Stored u ep' l' ->
  (exists h k, t = ByHashV h (Some m) /\ u = ByHashV k (Some n)) \/ (exists h k, t = ByNameV h (Some m) /\ u = ByNameV k (Some n)) ->
  review (p_hash pf) true a = Some la -> review (p_hash pf) true b = Some lb -> m <> n ->
  ~ look_alike pf true (enc_tx a) (enc_tx b).
Proof.
  intros Hh Ga Gb Xa Xb Ea Eb V Ra Rb N AL.
  destruct (calls_alike pf a b t ep l u ep' l' la lb Hh Ga Gb Xa Xb Ea Eb Ra Rb AL) as [ST _].
  destruct V as [(h & k & -> & ->)|(h & k & -> & ->)]; cbn in ST; tauto.
Qed.
