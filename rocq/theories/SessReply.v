(** The size of the answers. *)
From Verif Require Import Base Zxlib Crypto Utils RuntimeArg Deploy DeployUI TxV1 TxV1UI Parser BaseFacts Spec SpecText SpecDeploy SpecTx SpecApp SpecSess Exec ArgsFacts ReaderFacts TextFacts Demo App AppFacts AppHist AppClaims AppSign.

Lemma answer_tpe d s : answer (tx_parse_effect d s) = answer s.
Proof. unfold tx_parse_effect. destruct (tx_data (bufs s)) as [|k r]; [reflexivity|]. repeat first [reflexivity | match goal with |- context [match ?x with _ => _ end] => destruct x end]. Qed.
Lemma answer_tpm s : answer (tx_parse_message_effect s) = answer s.
Proof. unfold tx_parse_message_effect. destruct (tx_data (bufs s)) as [|k r]; reflexivity. Qed.
Lemma answer_tpw d s : answer (tx_parse_wasm_effect d s) = answer s.
Proof. unfold tx_parse_wasm_effect. destruct (tx_data (bufs s)) as [|k r]; reflexivity. Qed.
Lemma answer_wapp d bs s s1 : wapp d bs s s1 -> answer s1 = answer s.
Proof. intros []; [reflexivity|]. cbn [answer set_full]. rewrite answer_tpw. reflexivity. Qed.
Lemma answer_wpar d s s1 : wpar d s s1 -> answer s1 = answer s.
Proof. intros []; [reflexivity|]. apply answer_tpw. Qed.

Lemma described e : zlen (parser_getErrorDescription e) <= 100.
Proof.
  unfold parser_getErrorDescription. assert (X : zlen (str "Unrecognized error code") <= 100) by (vm_compute; discriminate).
  destruct e as [|p|p]; [vm_compute; discriminate| |exact X].
  do 5 (destruct p as [p|p|]; try exact X; try (vm_compute; discriminate)).
Qed.
Definition fits (rp : reply) : Prop := match rp with Status data sw => zlen data + 2 <= 260 | _ => True end.

Lemma other_data d bs pin s s' data sw : zlen (version_bytes d) <= 258 -> handleApdu d bs pin s = Ret (s', Status data sw) -> kind_of bs pin = KOther ->
  fits (Status data sw).
Proof.
  intros V H K.
  unfold kind_of, SA.address, SA.initial, SA.chunk, SA.signing, SA.command, SA.cla, SA.ins, SA.p2, SA.p1 in K. change (S.len bs) with (zlen bs) in K.
  unfold handleApdu in H. change 0x11 with 17 in H. unfold INS_GET_VERSION, INS_GET_ADDR, INS_SIGN, INS_SIGN_MSG, INS_SIGN_WASM in H.
  destruct (nth 0 bs 0 =? 17) eqn:E0; cbn [negb] in H; [|injection H as _ <- _; cbn; lia].
  destruct (zlen bs <? 5) eqn:E1; [injection H as _ <- _; cbn; lia|].
  destruct (nth 1 bs 0 =? 0) eqn:I0; [injection H as _ <- _; cbn; lia|].
  destruct ((nth 1 bs 0 =? 1) || (nth 1 bs 0 =? 2) || (nth 1 bs 0 =? 3) || (nth 1 bs 0 =? 4)) eqn:Q; [|injection H as _ <- _; cbn; lia].
  destruct pin; cbn [negb] in *; [|injection H as _ <- _; cbn; lia].
  replace (5 <=? zlen bs) with true in K by lia. cbn [andb] in K.
  destruct (nth 1 bs 0 =? 1) eqn:I1; [discriminate|]. cbn [orb] in Q, K.
  destruct (nth 3 bs 0 =? 0) eqn:P2.
  - rewrite Q in K. cbn [andb] in K. destruct (nth 2 bs 0 =? 0); [discriminate|]. cbn [andb orb] in K. destruct (_ || _) in K; discriminate.
  - destruct (nth 1 bs 0 =? 2); [|destruct (nth 1 bs 0 =? 3)].
    + unfold handleSign, process_chunk, P2_of in H. rewrite P2 in H. injection H as _ <- _; cbn; lia.
    + unfold handleSignMessage, process_chunk, P2_of in H. rewrite P2 in H. injection H as _ <- _; cbn; lia.
    + unfold handleSignWasm, process_wasm_chunk, P2_of in H. rewrite P2 in H. injection H as _ <- _; cbn; lia.
Qed.

Lemma fill_101 d p a : device_ok d -> keys_ok d -> fill_address d p = Ret a -> zlen a = 101.
Proof.
  intros D K F. destruct (fill_text _ _ _ D K F) as (k & _ & L & ->). rewrite !zlen_app, L.
  assert (X : zlen (ST.cep57 (p_hash (plat d) k) k) = 66) by (rewrite zlen_cep57; lia).
  rewrite X. reflexivity.
Qed.

Lemma answers_fit d s tr : device_ok d -> keys_ok d -> zlen (version_bytes d) <= 258 -> reach d s tr ->
  zlen (answer s) = 101 /\ Forall (fun n => fits (snd n)) tr.
Proof.
  intros D Ko Vb R. pattern s, tr. revert s tr R. apply (reach_ind d).
  - split; [reflexivity | constructor].
  - intros s tr ev s' rp R (La & F) Kev H.
    assert (X : zlen (answer s') = 101 /\ fits rp).
    { destruct (step_other _ _ _ _ _ H) as [(bs & pin & -> & P & A)|[(x & -> & P & -> & ->)|[(P & -> & -> & _)|[(P & -> & -> & _)|(r & P & -> & Q)]]]];
      try (split; [exact La | exact I]).
      - pose proof A as A0. acts A; cbn [fits]; try (split; [exact La | rewrite ?zlen_nil; lia]).
        + split; [exact La|]. unfold step in H. rewrite P in H. eapply other_data; eauto.
        + split; [reflexivity | cbn; lia].
        + cbn [answer set_answer]. rewrite (fill_101 _ _ _ D Ko Fi). lia.
        + cbn [answer set_answer set_pending]. rewrite (fill_101 _ _ _ D Ko Fi). auto.
        + cbn [answer set_pending]. rewrite answer_tpe. auto.
        + rewrite answer_tpe. pose proof (described e). split; [exact La | lia].
        + cbn [answer set_pending]. rewrite answer_tpm. auto.
        + rewrite answer_tpm. pose proof (described e). split; [exact La | lia].
        + cbn [answer set_init]. rewrite answer_tpw. split; [exact La | cbn; lia].
        + rewrite (answer_wapp _ _ _ _ W). split; [exact La | cbn; lia].
        + rewrite answer_tpw. cbn [answer set_init]. rewrite (answer_wapp _ _ _ _ W). split; [exact La | cbn; lia].
        + rewrite (answer_wpar _ _ _ Wp). cbn [answer set_init]. rewrite (answer_wapp _ _ _ _ W). split; [exact La | cbn; lia].
        + cbn [answer set_pending]. rewrite (answer_wpar _ _ _ Wp). cbn [answer set_init]. rewrite (answer_wapp _ _ _ _ W). auto.
      - split; [exact La|]. destruct Q as [(_ & ->)|[(ok & _ & _ & ->)|[(_ & _ & ->)|(_ & _ & Sg)]]]; cbn [fits]; try (cbn; lia).
        unfold app_sign in Sg. match type of Sg with match ?q with _ => _ end = _ => destruct q as [m|]; [|discriminate] end. destruct (sign_preimage s m); try discriminate; injection Sg as <-; cbn; lia. }
    destruct X as [X1 X2]. split; [exact X1|]. apply Forall_app. split; [exact F|]. constructor; [exact X2 | constructor].
Qed.
