(** What is shown of a deploy followed by arbitrary bytes, and of arbitrary
    accepted bytes. *)
From Verif Require Import Base Zxlib Crypto Utils RuntimeArg Deploy DeployUI TxV1 TxV1UI Parser BaseFacts Spec SpecText SpecDeploy SpecTx SpecLayout SpecRaw Exec ArgsFacts ReaderFacts TextFacts Shows ModuleFacts ReviewFacts Demo RawFacts.
Import S SD SR.

Lemma trailing_follows x H h p i n r : trailing x i n r -> follows x (sealed H h p i) n r.
Proof.
  intros [N X M]. unfold SL.word in N. constructor; [exact N|exact X|]. cbn [d_session sealed]. intros w l E. destruct (M w l E) as (post & Er & U & V & Q).
  exists post. split; [exact Er|]. constructor; [lia|exact V|exact Q].
Qed.
Lemma shown_sealed pf x h p i n r s :
  hash32 (p_hash pf) -> good_header h -> S.len (p_amount p) <= 64 -> good_session i -> h_bodyhash h = p_hash pf (enc_payment p ++ enc_session i) ->
  trailing x i n r ->
  let data := enc_header h ++ p_hash pf (enc_header h) ++ enc_payment p ++ enc_session i ++ r in
  bytes data -> zlen data < 65535 ->
  session_review (p_hash pf) x i = Some s -> expert_ok x (p_time pf) h ->
  reviews pf x (0 :: data) (around_n x (sealed (p_hash pf) h p i) n s).
Proof.
  intros Hh G P S0 B T data By L R X.
  assert (E : data = enc_signed (sealed (p_hash pf) h p i) ++ r).
  { unfold data, enc_signed, sealed, enc_body. cbn [d_header d_hash d_payment d_session]. rewrite <- !app_assoc. reflexivity. }
  rewrite E in *. apply signed_review; auto.
  - constructor; cbn [sealed d_header d_hash d_payment d_session]; auto. apply Hh.
  - apply trailing_follows, T.
Qed.
Lemma accepted_shown pf x data v :
  hash32 (p_hash pf) -> bytes data -> zlen data < 65472 -> SL.no_leap data ->
  tx_parse pf x (0 :: data) = Ret (TDeploy v) ->
  crowded data \/
  exists h pay ses rest,
    data = enc_header h ++ p_hash pf (enc_header h) ++ pay ++ ses ++ rest /\ form_header h /\ payment_bytes pay /\
    (odd_session ses \/ unreadable (ses ++ rest) \/
     exists i, ses = enc_session i /\ form_session i /\
       forall p n s, pay = enc_payment p -> good_header h -> S.len (p_amount p) <= 64 -> good_session i -> trailing x i n rest ->
       session_review (p_hash pf) x i = Some s -> expert_ok x (p_time pf) h ->
       reviews pf x (0 :: data) (around_n x (sealed (p_hash pf) h p i) n s)).
Proof.
  intros Hh B L N H. destruct (accepted_encoding _ _ _ _ Hh B L N H) as [C|(h & pay & ses & rest & E & F & Bh & Pb & _ & S0)]; [left; exact C|right].
  exists h, pay, ses, rest. split; [exact E|]. split; [exact F|]. split; [exact Pb|]. destruct S0 as [(i & Es & Fi)|[O|U]]; [|auto|auto].
  right. right. exists i. split; [exact Es|]. split; [exact Fi|]. intros p n s -> Gh Ga Gi T R X. subst ses. rewrite E in B, L |- *.
  apply shown_sealed; auto. lia.
Qed.
