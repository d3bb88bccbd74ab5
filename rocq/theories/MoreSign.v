(** Data appended to a transaction, and what is signed. *)
From Verif Require Import Base Zxlib Crypto Utils RuntimeArg Deploy DeployUI TxV1 TxV1UI Parser BaseFacts Spec SpecText SpecDeploy SpecTx Exec ArgsFacts ReaderFacts TextFacts RangeFacts BindFacts OklFacts Demo SpecApp App AppFacts AppHist AppClaims AppSign TxAccept ExtFacts ExtUI ExtTx ModeFacts.
Import S.

(** Where the signed digest lies. *)
Definition spot (t : txn) : Z :=
  match t with TDeploy v => header_length_deploy (dheader v) | TV1 v => metadata_size (tmeta v) + foff (tmeta v) 0 end.
Lemma spot_uncounted t u : uncounted t = uncounted u -> spot t = spot u.
Proof. destruct t, u; cbn; intros H; try discriminate; congruence. Qed.
Lemma spot_modes pf x y data t u : parser_parse pf x data = Ret t -> parser_parse pf y data = Ret u -> spot t = spot u.
Proof. intros T U. pose proof (same_fields pf x y data) as H. rewrite T, U in H. apply spot_uncounted. injection H as ->. reflexivity. Qed.

Lemma read_deploy_header e v o : parser_read_deploy e 0 = (Ret v, o) ->
  (exists pk o1 o2, readU8 e 0 = (Ret pk, o1) /\ read_header_counts pk e o1 = (Ret (dheader v), o2)).
Proof.
  intros R. unfold parser_read_deploy in R. bx R n q1 R1. bx R c1 q2 R2. bx R pk q3 R3. bx R c2 q4 R4. bx R h q5 R5. bx R st q6 R6. bx R pay q7 R7. bx R t q8 R8. bx R s q9 R9.
  apply ret_inv in R. destruct R as [-> ->]. injection R1 as <- <-. apply check_inv in R2. destruct R2 as [_ ->].
  apply check_inv in R4. destruct R4 as [_ ->]. exists pk, q3, q5. split; [exact R3|exact R5].
Qed.
Lemma stab_header pk : stab qs (read_header_counts pk). Proof. unfold read_header_counts. stb. Qed.
Lemma parse_deploy_any pf x data t : zlen data < 65535 -> data <> [] -> parser_parse pf x (0 :: data) = Ret t ->
  exists v o, t = TDeploy v /\ parser_read_deploy (ctx_of pf x false 40 data (zlen data)) 0 = (Ret v, o).
Proof.
  intros L N H. unfold parser_parse in H. pose proof (zlen_nonneg data). rewrite zlen_cons, u16_small in H by lia. cbv zeta in H.
  destruct data as [|b data]; [contradiction|]. rewrite zlen_cons in *. pose proof (zlen_nonneg data).
  replace (1 + (1 + zlen data) =? 0) with false in H by lia. replace (1 + (1 + zlen data) =? 1) with false in H by lia.
  replace (1 + (1 + zlen data) - 1) with (1 + zlen data) in H by lia. unfold parse_content in H. change (0 =? content_Deploy) with true in H. cbv iota in H.
  unfold bind in H. destruct (parser_read_deploy _ 0) as [[v|c|u] o] eqn:R; cbn in H; try discriminate. injection H as <-. eauto.
Qed.
Lemma spot_more pf x y k data post t u : zlen (data ++ post) < 65535 ->
  parser_parse pf x (k :: data) = Ret t -> parser_parse pf y (k :: data ++ post) = Ret u -> spot t = spot u.
Proof.
  intros L T U. pose proof (same_fields pf x y (k :: data ++ post)) as F. rewrite U in F.
  destruct (parser_parse pf x (k :: data ++ post)) as [u'| |] eqn:U'; try discriminate F. injection F as F. rewrite <- (spot_uncounted _ _ F). clear F U.
  pose proof (zlen_nonneg post). assert (Ld : zlen data < 65535) by (rewrite zlen_app in L; lia).
  destruct (list_eq_dec Z.eq_dec data []) as [->|N]; [unfold parser_parse in T; discriminate T|].
  assert (N' : data ++ post <> []) by (destruct data; [congruence|discriminate]).
  destruct (Z.eq_dec k 0) as [->|K0]; [|destruct (Z.eq_dec k 1) as [->|K1]].
  - destruct (parse_deploy_any _ _ _ _ Ld N T) as (v & o & -> & R). destruct (parse_deploy_any _ _ _ _ L N' U') as (w & o' & -> & R').
    destruct (read_deploy_header _ _ _ R) as (pk & o1 & o2 & P1 & P2). destruct (read_deploy_header _ _ _ R') as (pk' & o1' & o2' & P1' & P2').
    pose proof (longer_ctx pf x false 40 data post) as LL.
    pose proof (stab_Ret _ _ _ _ _ _ _ stab_u8 LL P1) as Q1. rewrite P1' in Q1. injection Q1 as -> ->.
    pose proof (stab_Ret _ _ _ _ _ _ _ (stab_header pk) LL P2) as Q2. rewrite P2' in Q2. injection Q2 as E _. cbn [spot]. rewrite E. reflexivity.
  - rewrite (v1_parse_more _ _ _ _ _ L T) in U'. injection U' as ->. reflexivity.
  - exfalso. unfold parser_parse, parse_content in T. cbv zeta in T. unfold content_Deploy, content_TransactionV1 in T.
    replace (k =? 0) with false in T by lia. replace (k =? 1) with false in T by lia. repeat destruct (_ =? _) in T; discriminate T.
Qed.

(** What is signed is where the parsed transaction says. *)
Lemma signed_spot d s tr1 e st p pre tr2 t : device_ok d ->
  reach d s (tr1 ++ (e, st, Signed p pre) :: tr2) -> pending st = Some (RTx t) ->
  exists k rest, tx_data (bufs st) = k :: rest /\ parser_parse (plat d) (expert_mode st) (k :: rest) = Ret t /\ slice rest (spot t) 32 = Some pre /\
    bytes rest /\ zlen rest < 65535.
Proof.
  intros D R P. destruct (reach_at _ _ _ _ _ _ _ R) as (R1 & _ & st' & E & _).
  pose proof (reach_buf _ _ _ D R1) as B.
  destruct (signed_step _ _ _ _ _ _ D B E) as (-> & _ & Sg & _).
  destruct (tx_sign _ _ _ _ _ _ D R1 P Sg) as (k & rest & Ed & X).
  destruct (review_state _ _ _ _ D R1 P) as (tr0 & bs & st0 & R0 & Ps & A & _).
  pose proof (act_opens _ _ _ _ _ _ A Ps P) as (_ & _ & _ & _ & _ & T & _).
  destruct (reach_data _ _ _ D R1) as [Bd L].
  destruct (parse_of_tx _ _ _ _ T L) as (_ & _ & _ & _ & PP & _).
  exists k, rest. rewrite Ed in *. split; [reflexivity|]. split; [exact PP|]. split.
  - destruct t; exact (proj2 X).
  - split; [inversion Bd; assumption|]. rewrite zlen_cons in L. lia.
Qed.

Lemma signed_more d s1 s2 a1 e1 st1 p1 pre1 b1 a2 e2 st2 p2 pre2 b2 t1 t2 post : device_ok d ->
  reach d s1 (a1 ++ (e1, st1, Signed p1 pre1) :: b1) -> pending st1 = Some (RTx t1) ->
  reach d s2 (a2 ++ (e2, st2, Signed p2 pre2) :: b2) -> pending st2 = Some (RTx t2) ->
  tx_data (bufs st2) = tx_data (bufs st1) ++ post -> pre2 = pre1.
Proof.
  intros D R1 P1 R2 P2 E.
  destruct (signed_spot _ _ _ _ _ _ _ _ _ D R1 P1) as (k & rest & E1 & T1 & S1 & _ & _).
  destruct (signed_spot _ _ _ _ _ _ _ _ _ D R2 P2) as (k' & rest' & E2 & T2 & S2 & _ & L).
  rewrite E1, E2 in E. cbn [Datatypes.app] in E. injection E as -> ->.
  pose proof (spot_more _ _ _ _ _ _ _ _ L T1 T2) as X. rewrite <- X, (slice_ext _ post _ _ _ S1) in S2. congruence.
Qed.
