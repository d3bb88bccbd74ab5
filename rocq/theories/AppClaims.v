(** What histories guarantee: signatures, reviewed data, paths, sessions. *)
From Verif Require Import Base Zxlib Crypto Utils RuntimeArg Deploy DeployUI TxV1 TxV1UI Parser BaseFacts Spec Exec ArgsFacts ReaderFacts SpecText TextFacts Demo SpecApp App AppFacts AppHist.

Ltac acts HA := destruct HA as [data sw K Hs|K|K Ll|K Ll PO|K Ll PO Fi|a K Ll PO Fi Pp|a K Ll PO Fi Pp|K Ll|K Ll PO|f K Ll PO Fi|l K Ei|l b n K Ei In A Nz|b K Ei In A
    |b t K Ei In A T|b e K Ei In A T|b K Ei In A T|b e K Ei In A T|l b n e K Ei In A Fi Nz T|s1 K Ei In W|s1 e K Ei In W Fi T|s1 s2 e K Ei In W Wp V|s1 s2 K Ei In W Wp V].

(** * Buffers contain bytes *)
Definition bytes_bufs (b : buffers) : Prop := bytes (ram b) /\ bytes (flash b).
Lemma bytes_firstn n l : bytes l -> bytes (firstn n l).
Proof. intros B. rewrite <- (firstn_skipn n l) in B. apply bytes_app in B. tauto. Qed.
Lemma bytes_skipn n l : bytes l -> bytes (skipn n l).
Proof. intros B. rewrite <- (firstn_skipn n l) in B. apply bytes_app in B. tauto. Qed.
Lemma bytes_overwrite a pos bs : bytes a -> bytes bs -> bytes (overwrite a pos bs).
Proof. intros A B. unfold overwrite. rewrite !bytes_app. auto using bytes_firstn, bytes_skipn. Qed.
Lemma bytes_flash fs b bs : bytes_bufs b -> bytes bs -> bytes_bufs (fst (flash_append fs b bs)).
Proof. intros [R F] B. unfold flash_append. destruct (_ <=? _); split; cbn; auto using bytes_overwrite. Qed.
Lemma bytes_append rs fs b bs : bytes_bufs b -> bytes bs -> bytes_bufs (fst (buf_append rs fs b bs)).
Proof.
  intros B C. unfold buf_append. destruct (in_ram b); [|apply bytes_flash; auto].
  destruct (_ <=? _); [destruct B; split; cbn; auto using bytes_overwrite|].
  set (b1 := mkBuf _ _ _ _ _). set (b2 := if 0 <? rpos b then _ else b1).
  assert (B1 : bytes_bufs b1) by (destruct B; split; auto).
  assert (B2 : bytes_bufs b2) by (unfold b2; destruct (0 <? _); auto; apply bytes_flash; auto; apply bytes_firstn; apply B).
  pose proof (bytes_flash fs b2 bs B2 C) as B3. destruct (flash_append fs b2 bs) as [b3 n]. destruct B3; split; auto.
Qed.
Lemma bytes_tx b : bytes_bufs b -> bytes (tx_data b).
Proof. intros [R F]. unfold tx_data. destruct (in_ram b); apply bytes_firstn; auto. Qed.

Lemma act_bytes d s bs pin s' rp : act d s bs pin s' rp -> bytes bs -> bytes_bufs (bufs s) -> bytes_bufs (bufs s').
Proof.
  intros A B0 BB.
  assert (BA : forall b n, buf_append (ram_size d) (flash_size d) (bufs s) (data_of bs) = (b, n) -> bytes_bufs b).
  { intros b n E. change b with (fst (b, n)). rewrite <- E. apply bytes_append; auto. apply bytes_skipn; auto. }
  acts A; eauto;
  try (destruct (tpe d (set_init false (set_bufs b s))) as (_ & _ & _ & Bu & _); cbn; rewrite Bu; exact (BA _ _ A));
  try (destruct (tpm (set_bufs b s)) as (_ & _ & _ & Bu & _); cbn; rewrite Bu; exact (BA _ _ A));
  try (destruct (tpw d (set_bufs b s)) as (_ & _ & _ & Bu & _); cbn; rewrite Bu; exact (BA _ _ A));
  destruct (wapp_frame _ _ _ _ W) as (_ & _ & _ & _ & _ & b & n & A & Bu).
  - rewrite Bu. exact (BA _ _ A).
  - destruct (tpw d (set_init false s1)) as (_ & _ & _ & Bu' & _). rewrite Bu'. cbn. rewrite Bu. exact (BA _ _ A).
  - destruct (wpar_frame _ _ _ Wp) as (_ & _ & _ & _ & _ & Bu'). rewrite Bu'. cbn. rewrite Bu. exact (BA _ _ A).
  - destruct (wpar_frame _ _ _ Wp) as (_ & _ & _ & _ & _ & Bu'). cbn. rewrite Bu'. cbn. rewrite Bu. exact (BA _ _ A).
Qed.
Lemma reach_bytes d s tr : reach d s tr -> bytes_bufs (bufs s).
Proof.
  intros R. pattern s, tr. revert s tr R. apply (reach_ind d).
  - split; cbn; unfold zeros; apply Forall_forall; intros x X; apply repeat_spec in X; subst; unfold byte; lia.
  - intros s tr e s' rp R IH K H.
    destruct (step_other _ _ _ _ _ H) as [(bs & pin & -> & P & A)|[(x & -> & P & -> & ->)|[(P & -> & _)|[(P & -> & _)|(r & P & -> & _)]]]]; auto.
    eapply act_bytes; eauto.
Qed.
Lemma reach_data d s tr : device_ok d -> reach d s tr -> bytes (tx_data (bufs s)) /\ zlen (tx_data (bufs s)) < 65536.
Proof.
  intros D R. split; [apply bytes_tx; eapply reach_bytes; eauto|].
  pose proof (tx_data_len _ _ (reach_buf _ _ _ D R) D). destruct D. lia.
Qed.

(** * What does not fit *)
Lemma append_full d b bs b' n : device_ok d -> buf_ok d b -> buf_append (ram_size d) (flash_size d) b bs = (b', n) ->
  n <> zlen bs -> flash_size d < zlen (tx_data b) + zlen bs.
Proof.
  intros D O H Nz. pose proof O as [O1 O2 O3 O4 O5]. pose proof D as [_ D1 D2 _].
  assert (FA : forall c c' m, buf_ok d c -> in_ram c = false -> flash_append (flash_size d) c bs = (c', m) -> m <> zlen bs ->
     flash_size d < zlen (tx_data c) + zlen bs).
  { intros c c' m [C1 C2 C3 C4 C5] Ic E X. unfold flash_append in E.
    destruct (fpos c + zlen bs <=? flash_size d) eqn:Ef; injection E as <- <-; [lia|].
    unfold tx_data. rewrite Ic. unfold zlen in *. rewrite firstn_length. lia. }
  unfold buf_append in H. destruct (in_ram b) eqn:I; [|eapply FA; eauto].
  destruct (rpos b + zlen bs <=? ram_size d); [injection H as <- <-; lia|].
  set (b1 := mkBuf (ram b) (flash b) false (rpos b) (fpos b)) in *.
  set (b2 := if 0 <? rpos b then _ else b1) in *.
  assert (B1 : buf_ok d b1) by (constructor; cbn; auto; discriminate).
  assert (B2 : buf_ok d b2 /\ in_ram b2 = false /\ tx_data b2 = tx_data b).
  { pose proof (O5 eq_refl) as F0. unfold b2. destruct (0 <? rpos b) eqn:R.
    - destruct (flash_append (flash_size d) b1 (firstn (Z.to_nat (rpos b)) (ram b))) as [b2' m] eqn:Fa.
      assert (Zr : zlen (firstn (Z.to_nat (rpos b)) (ram b)) = rpos b) by (unfold zlen in *; rewrite firstn_length; lia).
      pose proof Fa as Fa'. apply (flash_append_ok d) in Fa; auto. destruct Fa as (B & I2 & T). cbn [fst].
      split; [exact B|]. split; [exact I2|]. destruct T as [[-> T]|[-> [_ _]]].
      + rewrite T. unfold tx_data. rewrite I. unfold b1. cbn [in_ram fpos flash]. rewrite F0. reflexivity.
      + unfold flash_append in Fa'. unfold b1 in Fa' at 1. cbn [fpos] in Fa'. rewrite F0, Zr in Fa'.
        replace (0 + rpos b <=? flash_size d) with true in Fa' by lia. injection Fa' as _ Fa'. lia.
    - split; [exact B1|]. split; [reflexivity|]. unfold tx_data. rewrite I. unfold b1. cbn [in_ram fpos flash]. rewrite F0.
      replace (rpos b) with 0 by lia. reflexivity. }
  destruct B2 as (B2 & I2 & T2). destruct (flash_append (flash_size d) b2 bs) as [b3 m] eqn:Fa. injection H as <- <-.
  rewrite <- T2. eapply FA; eauto.
Qed.

(** * C33 *)
Definition no_wasm_chunks (tr : list entry) : Prop :=
  Forall (fun x => seen_with (fun bs => SA.chunk bs && (SA.ins bs =? 4)) x = false) tr.

Lemma act_data d s bs pin s' rp : act d s bs pin s' rp -> pending s = None -> device_ok d -> buf_ok d (bufs s) ->
  seen_with (fun bs => SA.chunk bs && (SA.ins bs =? 4)) (Apdu bs pin, s, rp) = false ->
  tx_data (bufs s') = collect (tx_data (bufs s)) (Apdu bs pin, s, rp).
Proof.
  intros A P D B NW. pose proof (kind_seen bs pin _ eq_refl) as KS.
  assert (BA : forall b n, buf_append (ram_size d) (flash_size d) (bufs s) (data_of bs) = (b, n) ->
     (n = zlen (data_of bs) -> tx_data b = tx_data (bufs s) ++ SA.payload bs) /\ (n <> zlen (data_of bs) -> tx_data b = tx_data (bufs s))).
  { intros b n E. apply append_ok in E; auto. destruct E as (_ & [[-> E]|(-> & Zp & E)]); split; intros X; try lia; exact E || (elim X; reflexivity). }
  unfold seen_with in NW.
  acts A; rewrite K in KS; cbn beta iota in KS;
  try (destruct KS as (-> & KS)); unfold collect, seen in *; rewrite P in *; cbn [snd refused];
  try (destruct KS as (KA & KI & KC & KL)); try (destruct KS as (KA & KI & KC)); rewrite ?KI, ?KC in *; cbn [andb negb] in *;
  try (rewrite In in NW; discriminate); try reflexivity.
  - destruct pin; [|reflexivity]. destruct KS as [KS|(_ & KI & KC)]; [discriminate|]. rewrite KI, KC. reflexivity.
  - exact (proj2 (BA _ _ A) Nz).
  - exact (proj1 (BA _ _ A) eq_refl).
  - destruct (tpe d (set_init false (set_bufs b s))) as (_ & _ & _ & Bu & _). cbn [bufs set_pending]. rewrite Bu. exact (proj1 (BA _ _ A) eq_refl).
  - destruct (tpe d (set_init false (set_bufs b s))) as (_ & _ & _ & Bu & _). cbn [bufs set_pending]. rewrite Bu. exact (proj1 (BA _ _ A) eq_refl).
  - destruct (tpm (set_bufs b s)) as (_ & _ & _ & Bu & _). cbn [bufs set_pending]. rewrite Bu. exact (proj1 (BA _ _ A) eq_refl).
  - destruct (tpm (set_bufs b s)) as (_ & _ & _ & Bu & _). cbn [bufs set_pending]. rewrite Bu. exact (proj1 (BA _ _ A) eq_refl).
Qed.

Lemma collect_other acc e s rp : (forall bs, e <> Apdu bs true) \/ pending s <> None -> collect acc (e, s, rp) = acc.
Proof.
  intros H. unfold collect, seen. destruct e as [bs pin| | |]; try reflexivity. destruct pin; [|reflexivity].
  destruct (pending s); [reflexivity|]. destruct H as [H|H]; [elim (H bs); reflexivity | elim H; reflexivity].
Qed.

Lemma reach_sent d s tr : device_ok d -> reach d s tr -> no_wasm_chunks tr -> tx_data (bufs s) = sent tr.
Proof.
  intros D R. pattern s, tr. revert s tr R. apply (reach_ind d).
  - reflexivity.
  - intros s tr e s' rp R IH K H NW. apply Forall_app in NW. destruct NW as [NW NE]. inversion NE as [|? ? NE1 _]; subst.
    rewrite sent_snoc. specialize (IH NW). pose proof (reach_buf _ _ _ D R) as B.
    destruct (step_other _ _ _ _ _ H) as [(bs & pin & -> & P & A)|[(x & -> & P & -> & ->)|[(P & -> & -> & E)|[(P & -> & -> & _)|(r & P & -> & _)]]]].
    + rewrite <- IH. eapply act_data; eauto.
    + rewrite collect_other by (left; discriminate). exact IH.
    + rewrite collect_other by (left; destruct E as [->|[? ->]]; discriminate). exact IH.
    + rewrite collect_other by (right; exact P). exact IH.
    + rewrite collect_other by (right; congruence). exact IH.
Qed.

(** the context of a review refers to the whole data *)
Lemma ctx_whole d s c : device_ok d -> buf_ok d (bufs s) -> 
  ctx_data (bufs s) (here s 0 (u16 (zlen (tx_data (bufs s)))) false c) = Some (tx_data (bufs s)).
Proof.
  intros D B. pose proof (tx_data_len _ _ B D) as L. destruct D as [_ D1 D2 D3]. pose proof (zlen_nonneg (tx_data (bufs s))).
  rewrite u16_small by lia. unfold ctx_data, here. cbn [cbuf clen]. destruct B as [B1 B2 B3 B4 B5].
  unfold tx_data in *. destruct (in_ram (bufs s)).
  - unfold slice. replace (_ && _) with true.
    + f_equal. rewrite skipn_O. unfold zlen in *. rewrite firstn_length, Nat2Z.id. f_equal. lia.
    + unfold zlen in *. rewrite firstn_length in *. lia.
  - unfold slice. replace (_ && _) with true.
    + f_equal. rewrite skipn_O. unfold zlen in *. rewrite firstn_length, Nat2Z.id. f_equal. lia.
    + unfold zlen in *. rewrite firstn_length in *. lia.
Qed.

Lemma msg_ctx d s s1 : device_ok d -> buf_ok d (bufs s) -> bufs s1 = bufs s -> 
  s = set_pending (Some RMsg) (tx_parse_message_effect s1) -> parser_parse_message (tx_data (bufs s)) = Ret tt ->
  ctx_data (bufs s) (ctx s) = Some (tx_data (bufs s)) /\ obj_type s = type_Message /\ ccontent (ctx s) = ccontent (ctx s1).
Proof.
  intros D B E -> T. cbn [ctx set_pending bufs obj_type] in *. rewrite <- E in *.
  pose proof (ctx_whole d s1 (ccontent (ctx s1)) D B) as C.
  unfold tx_parse_message_effect. rewrite T.
  destruct (tx_data (bufs s1)) as [|k r] eqn:Dt; [discriminate|]. auto.
Qed.

Lemma reviewed d s tr : device_ok d -> reach d s tr -> no_wasm_chunks tr ->
  match pending s with
  | Some (RTx t) => tx_parse (plat d) (expert_mode s) (sent tr) = Ret t /\
      forall kl i, review_item d s (RTx t) kl i = tx_getItem (plat d) (expert_mode s) kl (sent tr) t i
  | Some RMsg => parser_parse_message (sent tr) = Ret tt /\
      forall kl i, review_item d s RMsg kl i = parser_getMessageItem (plat d) (sent tr) i
  | _ => True
  end.
Proof.
  intros D R NW. pose proof (reach_sent _ _ _ D R NW) as E. pose proof (reach_opened _ _ _ D R) as O. pose proof (reach_buf _ _ _ D R) as B.
  unfold opened in O. destruct (pending s) as [r|] eqn:P; [|exact I].
  destruct (O ltac:(discriminate)) as (tr0 & bs & pin & st & mid & _ & Ps & R0 & A & _).
  pose proof (act_opens _ _ _ _ _ _ A Ps P) as X. destruct r; auto.
  - destruct X as (_ & _ & _ & _ & _ & T & _). rewrite <- E. split; [exact T|]. reflexivity.
  - destruct X as (_ & _ & _ & _ & T & s1 & Bu & Es & _). rewrite <- E. split; [exact T|].
    destruct (msg_ctx d s s1 D B Bu Es T) as (C & _). intros kl i. cbn [review_item]. rewrite C. reflexivity.
Qed.

(** a chunk that does not fit is refused, and so is everything until the next initial chunk *)
Lemma chunk_fits d s tr bs s' rp : device_ok d -> reach d s tr -> no_wasm_chunks tr -> pending s = None ->
  SA.chunk bs = true -> SA.ins bs <> 4 -> step d s (Apdu bs true) = Ret (s', rp) ->
  (refused rp = false -> zlen (sent tr ++ SA.payload bs) <= flash_size d) /\
  (flash_size d < zlen (sent tr ++ SA.payload bs) ->
     (rp = Status [] SA.too_long \/ rp = Status [] SA.no_session) /\ tx_initialized s' = false).
Proof.
  intros D R NW P C N4 H. pose proof (reach_buf _ _ _ D R) as B. pose proof (reach_sent _ _ _ D R NW) as E. rewrite <- E.
  apply step_act in H; auto. pose proof (kind_seen bs true _ eq_refl) as KS.
  assert (BA : forall b, buf_append (ram_size d) (flash_size d) (bufs s) (data_of bs) = (b, zlen (data_of bs)) ->
     zlen (tx_data (bufs s) ++ SA.payload bs) <= flash_size d).
  { intros b A. apply append_ok in A; auto. change (data_of bs) with (SA.payload bs) in *.
    destruct A as (Bb & [[_ A]|(Z0 & Zp & _)]); [|lia]. rewrite <- A. apply tx_data_len; auto. }
  acts H; rewrite K in KS; cbn beta iota in KS; try (destruct KS as (_ & KS));
  try (destruct KS as [KS|KS]; [discriminate|destruct KS as (_ & _ & KS); congruence]);
  try (destruct KS as (_ & _ & KS); congruence); try congruence; cbn [refused].
  - split; [discriminate|]. intros _. split; [right; reflexivity|exact Ei].
  - split; [discriminate|]. intros _. split; [left; reflexivity|reflexivity].
  - pose proof (BA _ A). split; intros; lia.
  - pose proof (BA _ A). split; intros; lia.
  - pose proof (BA _ A). split; intros; lia.
  - pose proof (BA _ A). split; intros; lia.
  - pose proof (BA _ A). split; intros; lia.
Qed.

(** * C32 *)
Lemma signed_step d s e s' p pre : device_ok d -> buf_ok d (bufs s) -> step d s e = Ret (s', Signed p pre) ->
  e = Approve true /\ p = hdPath s /\ app_sign d s = Ret (Signed p pre) /\ s' = set_pending None s /\
  exists r, pending s = Some r /\ r <> RAddr.
Proof.
  intros D B H.
  destruct (step_other _ _ _ _ _ H) as [(bs & pin & -> & P & A)|[(x & -> & P & -> & E)|[(P & -> & E & _)|[(P & -> & E & _)|(r & P & -> & E)]]]]; try discriminate.
  - destruct (act_frame _ _ _ _ _ _ A P D B) as (_ & _ & _ & []).
  - destruct E as [[_ E]|[(ok & _ & _ & E)|[(_ & _ & E)|(-> & Nr & E)]]]; try discriminate.
    destruct (sign_reply _ _ _ E) as [(pre' & X)|X]; [|discriminate]. injection X as -> ->. repeat split; eauto.
Qed.

(** what acceptance means for the kind of review *)
Definition accepted_as (d : device) (bs : list Z) (s : app) (r : review) : Prop :=
  match r with
  | RTx t => SA.ins bs = 2 /\ tx_parse (plat d) (expert_mode s) (tx_data (bufs s)) = Ret t
  | RMsg => SA.ins bs = 3 /\ parser_parse_message (tx_data (bufs s)) = Ret tt
  | RWasm => SA.ins bs = 4 /\ tx_validate_wasm d s = Ret tt
  | RAddr => False
  end.

Lemma signed_after_review d s tr1 e st p pre tr2 : device_ok d ->
  reach d s (tr1 ++ (e, st, Signed p pre) :: tr2) ->
  e = Approve true /\
  exists r tr0 bs st0 mid,
    tr1 = tr0 ++ (Apdu bs true, st0, NoReply) :: mid /\
    SA.last_chunk bs = true /\ pending st0 = None /\ pending st = Some r /\
    accepted_as d bs st r /\ Forall (ignored st) mid.
Proof.
  intros D R. destruct (reach_at _ _ _ _ _ _ _ R) as (R1 & _ & st' & E & _).
  pose proof (reach_buf _ _ _ D R1) as B. pose proof (reach_opened _ _ _ D R1) as O.
  destruct (signed_step _ _ _ _ _ _ D B E) as (-> & _ & _ & _ & r & P & Nr). split; [reflexivity|].
  unfold opened in O. rewrite P in O. destruct (O ltac:(discriminate)) as (tr0 & bs & pin & st0 & mid & -> & Ps & R0 & A & F).
  pose proof (act_opens _ _ _ _ _ _ A Ps P) as X.
  exists r, tr0, bs, st0, mid. destruct r; try congruence; cbn [accepted_as].
  - destruct X as (-> & L & I2 & _ & _ & T & _). repeat split; auto.
  - destruct X as (-> & L & I2 & _ & T & _). repeat split; auto.
  - destruct X as (-> & L & I2 & _ & _ & T). repeat split; auto.
Qed.

Definition opens (x : entry) : Prop :=
  exists bs st, x = (Apdu bs true, st, NoReply) /\ SA.last_chunk bs = true /\ pending st = None.
Lemma one_signature d s tr1 e1 st1 p1 pre1 mid e2 st2 p2 pre2 tr2 : device_ok d ->
  reach d s (tr1 ++ (e1, st1, Signed p1 pre1) :: mid ++ (e2, st2, Signed p2 pre2) :: tr2) ->
  Exists opens mid.
Proof.
  intros D R.
  replace (tr1 ++ (e1, st1, Signed p1 pre1) :: mid ++ (e2, st2, Signed p2 pre2) :: tr2)
    with ((tr1 ++ (e1, st1, Signed p1 pre1) :: mid) ++ (e2, st2, Signed p2 pre2) :: tr2) in R by (rewrite <- app_assoc; reflexivity).
  destruct (signed_after_review _ _ _ _ _ _ _ _ D R) as (_ & r & tr0 & bs & st0 & mid' & E & L & P0 & _ & _ & F).
  apply Exists_exists. exists (Apdu bs true, st0, NoReply).
  split; [|exists bs, st0; auto].
  (* the opening entry comes after the first signature, since only ignored entries follow it *)
  assert (X : forall (a b : list entry) x y a' b', a ++ x :: b = a' ++ y :: b' -> x <> y -> ~ In x b' -> In y b).
  { clear. induction a as [|h a IH]; intros b x y [|h' a'] b' E N NI; cbn in E; injection E as E1 E2; subst.
    - congruence.
    - apply in_or_app. right. left. reflexivity.
    - elim NI. apply in_or_app. right. left. reflexivity.
    - eapply IH; eauto. }
  eapply X; [exact E | discriminate|].
  intros In. rewrite Forall_forall in F. destruct (F _ In) as (e & Y). discriminate.
Qed.

(** * C34 *)
Definition carries (x : entry) : bool := seen_with SA.has_path x.

Lemma reach_path d s tr : device_ok d -> reach d s tr ->
  hdPath s = match last_path tr with Some p => p | None => zeros 5 end.
Proof.
  intros D R. pattern s, tr. revert s tr R. apply (reach_ind d).
  - reflexivity.
  - intros s tr e s' rp R IH K H. rewrite last_path_snoc. pose proof (reach_buf _ _ _ D R) as B.
    destruct (step_other _ _ _ _ _ H) as [(bs & pin & -> & P & A)|[(x & -> & P & -> & ->)|[(P & -> & -> & E)|[(P & -> & -> & E)|(r & P & -> & _)]]]].
    + destruct (act_frame _ _ _ _ _ _ A P D B) as (_ & _ & Hp & _). rewrite Hp. unfold seen. rewrite P.
      destruct pin; cbn [andb]; [|exact IH]. destruct (SA.has_path bs); [reflexivity|exact IH].
    + exact IH.
    + destruct E as [->|[? ->]]; exact IH.
    + destruct E as [(bs & [] & ->)|[x ->]]; cbn [seen]; try exact IH. destruct (pending s); [exact IH | congruence].
    + cbn [hdPath set_pending]. rewrite IH. unfold seen. destruct e as [? []| | |]; try reflexivity. rewrite P. reflexivity.
Qed.

(** a session has been started by an accepted initial chunk *)
Lemma reach_started d s tr : device_ok d -> reach d s tr ->
  (tx_initialized s = true \/ exists r, pending s = Some r /\ r <> RAddr) ->
  Exists (fun x => seen_with SA.initial x = true /\ carries x = true /\ snd x = Status [] SA.ok) tr.
Proof.
  intros D R. pattern s, tr. revert s tr R. apply (reach_ind d).
  - intros [H|(r & H & _)]; discriminate.
  - intros s tr e s' rp R IH Kev H X. apply Exists_app. pose proof (reach_buf _ _ _ D R) as B.
    destruct (step_other _ _ _ _ _ H) as [(bs & pin & -> & P & A)|[(x & -> & P & -> & ->)|[(P & -> & -> & E)|[(P & -> & -> & E)|(r & P & -> & _)]]]];
    try (left; apply IH; exact X).
    + pose proof (kind_seen bs pin _ eq_refl) as KS. pose proof (has_path_kind bs pin) as HP.
      assert (C : (tx_initialized s = true) \/ (kind_of bs pin = KInit /\ rp = Status [] SW_OK /\ SA.has_path bs = true)).
      { acts A; auto; rewrite K in *; cbn beta iota in *; try (destruct X as [X|(r & X & Y)]; [cbn in X; try discriminate; auto|cbn in X; try congruence; try (injection X as <-; congruence)]; fail).
        right. repeat split; auto. rewrite HP. lia. }
      destruct C as [C|(Kk & -> & C)]; [left; auto|]. right. rewrite Kk in *. destruct KS as (-> & _ & Ki & _).
      constructor. unfold carries, seen_with, seen. rewrite P. auto.
    + left. apply IH. left. destruct X as [X|(r' & X & _)]; [exact X|discriminate].
Qed.

Lemma last_path_split : forall tr p, last_path tr = Some p ->
  exists tr0 x mid bs, tr = tr0 ++ x :: mid /\ seen x = Some bs /\ SA.has_path bs = true /\ p = SA.path bs /\
    Forall (fun y => carries y = false) mid.
Proof.
  induction tr as [|x tr IH] using rev_ind; intros p H; [discriminate|]. rewrite last_path_snoc in H.
  destruct (seen x) as [bs|] eqn:Se.
  - destruct (SA.has_path bs) eqn:HP.
    + injection H as <-. exists tr, x, [], bs. auto.
    + destruct (IH p H) as (tr0 & y & mid & bs' & -> & S1 & S2 & S3 & F). exists tr0, y, (mid ++ [x]), bs'.
      rewrite <- app_assoc. repeat split; auto. apply Forall_app; split; [exact F|]. constructor; [|constructor].
      unfold carries, seen_with. rewrite Se. exact HP.
  - destruct (IH p H) as (tr0 & y & mid & bs' & -> & S1 & S2 & S3 & F). exists tr0, y, (mid ++ [x]), bs'.
    rewrite <- app_assoc. repeat split; auto. apply Forall_app; split; [exact F|]. constructor; [|constructor].
    unfold carries, seen_with. rewrite Se. reflexivity.
Qed.
Lemma carries_last tr : Exists (fun x => carries x = true) tr -> last_path tr <> None.
Proof.
  induction tr as [|x tr IH] using rev_ind; intros H; [inversion H|]. rewrite last_path_snoc.
  apply Exists_app in H. destruct H as [H|H].
  - specialize (IH H). destruct (seen x); [destruct (SA.has_path l); [discriminate|exact IH]|exact IH].
  - inversion H as [? ? H1|? ? H1]; subst; [|inversion H1]. unfold carries, seen_with in H1. destruct (seen x); [|discriminate].
    rewrite H1. discriminate.
Qed.
Lemma seen_is x bs : seen x = Some bs -> exists st rp, x = (Apdu bs true, st, rp) /\ pending st = None.
Proof.
  destruct x as [[[b []| | |] st] rp]; cbn; try discriminate. destruct (pending st) eqn:P; [discriminate|].
  intros H. injection H as ->. eauto.
Qed.

Lemma path_ok_casper p : path_ok p = true -> SA.casper_path p.
Proof. unfold path_ok, SA.casper_path, HDPATH_0, HDPATH_1. intros H. lia. Qed.

Lemma signed_path d s tr1 e st p pre tr2 : device_ok d ->
  reach d s (tr1 ++ (e, st, Signed p pre) :: tr2) ->
  exists tr0 bs st0 rp0 mid,
    tr1 = tr0 ++ (Apdu bs true, st0, rp0) :: mid /\ SA.has_path bs = true /\ pending st0 = None /\
    Forall (fun y => carries y = false) mid /\ p = SA.path bs /\
    (rp0 = Status [] SA.bad_data \/ SA.casper_path p).
Proof.
  intros D R. destruct (reach_at _ _ _ _ _ _ _ R) as (R1 & _ & st' & E & _).
  pose proof (reach_buf _ _ _ D R1) as B.
  destruct (signed_step _ _ _ _ _ _ D B E) as (-> & Hp & _ & _ & r & P & Nr).
  pose proof (reach_path _ _ _ D R1) as LP. pose proof (reach_started _ _ _ D R1 ltac:(eauto)) as St.
  assert (X : last_path tr1 <> None).
  { apply carries_last. rewrite Exists_exists in *. destruct St as (x & I & _ & C & _). eauto. }
  destruct (last_path tr1) as [q|] eqn:LQ; [|congruence]. clear X.
  destruct (last_path_split _ _ LQ) as (tr0 & x & mid & bs & -> & S1 & S2 & S3 & Fm).
  destruct (seen_is _ _ S1) as (st0 & rp0 & -> & P0). exists tr0, bs, st0, rp0, mid.
  split; [reflexivity|]. split; [exact S2|]. split; [exact P0|]. split; [exact Fm|]. split; [congruence|].
  destruct (reach_at _ _ _ _ _ _ _ R1) as (R0 & _ & st1 & E1 & _). apply step_act in E1; auto.
  pose proof (kind_seen bs true _ eq_refl) as KS. pose proof (has_path_kind bs true) as HP.
  assert (Ep : p = SA.path bs) by congruence. rewrite Ep.
  acts E1; rewrite K in *; cbn beta iota in *; try (right; apply path_ok_casper; exact PO); try (left; reflexivity); try congruence;
  try (exfalso; rewrite S2 in HP; lia).
Qed.

Lemma session_path d s tr1 ev st p pre tr2 : device_ok d ->
  reach d s (tr1 ++ (ev, st, Signed p pre) :: tr2) ->
  Forall (fun x => seen_with SA.address x = false) tr1 ->
  Forall (fun x => seen_with SA.initial x = true -> snd x = Status [] SA.ok) tr1 ->
  exists tr0 bs st0 mid,
    tr1 = tr0 ++ (Apdu bs true, st0, Status [] SA.ok) :: mid /\ SA.initial bs = true /\ pending st0 = None /\
    Forall (fun y => seen_with SA.initial y = false) mid /\ p = SA.path bs /\ SA.casper_path p.
Proof.
  intros D R NA OK. destruct (signed_path _ _ _ _ _ _ _ _ D R) as (tr0 & bs & st0 & rp0 & mid & -> & HP & P0 & F & Ep & C).
  apply Forall_app in NA. destruct NA as [_ NA]. inversion NA as [|? ? NA1 NA2]; subst. clear NA.
  apply Forall_app in OK. destruct OK as [_ OK]. inversion OK as [|? ? OK1 OK2]; subst. clear OK.
  unfold seen_with, seen in NA1. rewrite P0 in NA1. unfold seen_with, seen in OK1. rewrite P0 in OK1. cbn [snd] in OK1.
  assert (SI : SA.initial bs = true).
  { unfold SA.has_path in HP. destruct (SA.initial bs); [reflexivity|]. rewrite NA1 in HP. discriminate. }
  specialize (OK1 SI). subst rp0. exists tr0, bs, st0, mid. split; [reflexivity|]. split; [exact SI|]. split; [exact P0|].
  split; [|split; [reflexivity|destruct C; [discriminate|assumption]]].
  (* an accepted initial chunk carries a path *)
  rewrite Forall_forall in *. intros y In. destruct (seen_with SA.initial y) eqn:E; [|reflexivity].
  specialize (OK2 y In E). specialize (F y In). exfalso.
  unfold seen_with in E. destruct (seen y) as [by_|] eqn:Sy; [|discriminate].
  destruct (seen_is _ _ Sy) as (sty & rpy & -> & Py). cbn [snd] in OK2. subst rpy.
  unfold carries, seen_with in F. rewrite Sy in F.
  apply in_split in In. destruct In as (m1 & m2 & ->).
  assert (R' : reach d s ((tr0 ++ (Apdu bs true, st0, Status [] SA.ok) :: m1) ++ (Apdu by_ true, sty, Status [] SA.ok) :: (m2 ++ (ev, st, Signed (SA.path bs) pre) :: tr2))).
  { rewrite <- !app_assoc in R. cbn [Datatypes.app] in R. rewrite <- !app_assoc in R. rewrite <- !app_assoc. exact R. }
  destruct (reach_at d s (tr0 ++ (Apdu bs true, st0, Status [] SA.ok) :: m1) (Apdu by_ true) sty (Status [] SA.ok) _ R') as (_ & _ & st1 & E1 & _). apply step_act in E1; auto.
  pose proof (kind_seen by_ true _ eq_refl) as KS. pose proof (has_path_kind by_ true) as HPb.
  remember (Status [] SA.ok) as rp eqn:Er.
  acts E1; rewrite K in *; cbn beta iota in *; try (destruct KS as (_ & KA & KI & _); congruence); try discriminate.
  - destruct KS as [KS|(_ & KI & _)]; congruence.
  - rewrite F in HPb. lia.
Qed.

(** * C36 *)
Lemma init_persists d s bs pin s' rp : act d s bs pin s' rp -> pending s = None -> tx_initialized s = false ->
  (pin && SA.initial bs = false \/ rp <> Status [] SA.ok) -> tx_initialized s' = false.
Proof.
  intros A P N NI. pose proof (kind_seen bs pin _ eq_refl) as KS.
  acts A; rewrite K in *; cbn beta iota in *; try congruence; auto.
  destruct KS as (-> & _ & KI & _). rewrite KI in NI. destruct NI as [NI|NI]; [discriminate|]. elim NI. reflexivity.
Qed.

(** a processed last chunk of a transaction or raw-WASM deploy ends the session *)
Lemma last_ends d s bs s' rp : act d s bs true s' rp -> pending s = None -> SA.last_chunk bs = true -> SA.ins bs <> 3 ->
  tx_initialized s' = false.
Proof.
  intros A P L N3. pose proof (kind_seen bs true _ eq_refl) as KS.
  assert (C : SA.chunk bs = true).
  { unfold SA.last_chunk, SA.chunk in *. destruct (SA.signing bs && (SA.p2 bs =? 0)); cbn [andb] in *; [lia|discriminate]. }
  acts A; rewrite K in *; cbn beta iota in *; auto; try congruence;
  try (destruct KS as (_ & _ & _ & KC); congruence); try (destruct KS as (_ & _ & _ & _ & KL); congruence).
  - destruct KS as [KS|(_ & _ & KS)]; congruence.
  - destruct (tpe d (set_init false (set_bufs b s))) as (X & _). exact X.
  - destruct (tpe d (set_init false (set_bufs b s))) as (X & _). exact X.
  - destruct (tpw d (set_init false s1)) as (X & _). exact X.
  - destruct (wpar_frame _ _ _ Wp) as (X & _). exact X.
  - destruct (wpar_frame _ _ _ Wp) as (X & _). exact X.
Qed.

Lemma closed_stays d tr2 : forall s tr, device_ok d -> forall s', reach d s tr -> reach d s' (tr ++ tr2) ->
  tx_initialized s = false ->
  Forall (fun y => seen_with SA.initial y = true -> snd y <> Status [] SA.ok) tr2 -> tx_initialized s' = false.
Proof.
  induction tr2 as [|x tr2 IH] using rev_ind; intros s tr D s' R R' N F.
  - rewrite app_nil_r in R'. destruct R as (es & F1 & R), R' as (es' & F2 & R').
    pose proof (run_events _ _ _ _ _ R) as E1. pose proof (run_events _ _ _ _ _ R') as E2. subst. 
    assert (X : @Ret (app * list entry) (s, tr) = Ret (s', tr)) by (etransitivity; [symmetry; exact R | exact R']).
    injection X as <-. exact N.
  - apply Forall_app in F. destruct F as [F Fx]. inversion Fx as [|? ? Fx1 _]; subst.
    destruct x as [[e st] rp]. rewrite app_assoc in R'.
    destruct (reach_at _ _ _ _ _ _ _ R') as (R1 & _ & st1 & E1 & R2).
    assert (st1 = s') as ->.
    { destruct R2 as (es & F1 & R2), R' as (es' & F2 & R').
      pose proof (run_events _ _ _ _ _ R2) as X1. pose proof (run_events _ _ _ _ _ R') as X2. subst.
      assert (X : @Ret (app * list entry) (st1, (tr ++ tr2) ++ [(e, st, rp)]) = Ret (s', (tr ++ tr2) ++ [(e, st, rp)])) by (etransitivity; [symmetry; exact R2 | exact R']).
      injection X as ->. reflexivity. }
    specialize (IH s tr D st R R1 N F). pose proof (reach_buf _ _ _ D R1) as B.
    destruct (step_other _ _ _ _ _ E1) as [(bs & pin & -> & P & A)|[(y & -> & P & -> & ->)|[(P & -> & -> & E)|[(P & -> & -> & E)|(r & P & -> & _)]]]]; auto.
    eapply init_persists; eauto. unfold seen_with, seen in Fx1. rewrite P in Fx1. cbn [snd] in Fx1.
    destruct pin; [|left; reflexivity]. destruct (SA.initial bs); [right; auto|left; reflexivity].
Qed.

Lemma restart d s tr1 bs st1 rp1 mid bs2 st2 rp2 tr2 : device_ok d ->
  reach d s (tr1 ++ (Apdu bs true, st1, rp1) :: mid ++ (Apdu bs2 true, st2, rp2) :: tr2) ->
  SA.last_chunk bs = true -> SA.ins bs <> 3 -> pending st1 = None ->
  Forall (fun y => seen_with SA.initial y = true -> snd y <> Status [] SA.ok) mid ->
  SA.chunk bs2 = true -> pending st2 = None ->
  rp2 = Status [] SA.no_session.
Proof.
  intros D R L N3 P1 F C P2.
  assert (R' : reach d s ((tr1 ++ (Apdu bs true, st1, rp1) :: mid) ++ (Apdu bs2 true, st2, rp2) :: tr2)) by (rewrite <- app_assoc; exact R).
  destruct (reach_at _ _ _ _ _ _ _ R) as (Ra & _ & sa & Ea & Rb).
  destruct (reach_at _ _ _ _ _ _ _ R') as (Rc & _ & sc & Ec & _).
  apply step_act in Ea; auto. pose proof (last_ends _ _ _ _ _ Ea P1 L N3) as Na.
  replace (tr1 ++ (Apdu bs true, st1, rp1) :: mid) with ((tr1 ++ [(Apdu bs true, st1, rp1)]) ++ mid) in Rc by (rewrite <- app_assoc; reflexivity).
  pose proof (closed_stays d mid sa _ D st2 Rb Rc Na F) as N.
  apply step_act in Ec; auto. pose proof (kind_seen bs2 true _ eq_refl) as KS.
  acts Ec; rewrite K in *; cbn beta iota in *; try congruence; try (destruct KS as (_ & _ & _ & KC); congruence); try reflexivity.
  destruct KS as [KS|(_ & _ & KS)]; congruence.
Qed.

(** * C37 *)
Lemma answered d s bs pin r : device_ok d -> buf_ok d (bufs s) -> pending s = None -> step d s (Apdu bs pin) = r ->
  match r with
  | Ret (s', Status _ sw) => pending s' = None /\ 0 <= sw < 65536
  | Ret (s', NoReply) => pending s' <> None
  | Ret (_, Signed _ _) => False
  | Fail _ => False
  | Undef _ => True
  end.
Proof.
  intros D B P H. destruct r as [[s' rp]|e|u].
  - apply step_act in H; auto. destruct (act_frame _ _ _ _ _ _ H P D B) as (_ & _ & _ & X). destruct rp; auto.
  - unfold step in H. rewrite P in H. unfold handleApdu, throw in H.
    repeat match type of H with (if ?b then _ else _) = _ => destruct b; try discriminate end.
    + unfold handleGetAddr, throw in H. destruct (extractHDPath bs s) as [s1 [x|]]; [discriminate|].
      destruct (fill_address d (hdPath s1)); try discriminate. destruct (P1_of bs =? 0); discriminate.
    + unfold handleSign, throw in H. destruct (process_chunk d bs s); try discriminate.
      cbv zeta in H. destruct (tx_parse _ _ _); discriminate.
    + unfold handleSignMessage, throw in H. destruct (process_chunk d bs s); try discriminate.
      cbv zeta in H. destruct (parser_parse_message _); discriminate.
    + assert (W : forall e', process_wasm_chunk d bs s <> Fail e').
      { intros e' W. unfold process_wasm_chunk in W.
        repeat match type of W with (if ?b then _ else _) = _ => destruct b; try discriminate end.
        destruct (wasm_append d bs s) as [[]| |] eqn:WA; try discriminate.
        unfold wasm_append in WA. destruct (append_chunk d s bs) as [s1 f].
        destruct (negb (tx_bufferFull s1) && negb f); [|discriminate]. destruct (tx_parse_wasm d s1); discriminate. }
      unfold handleSignWasm, throw in H. destruct (process_wasm_chunk d bs s) as [[]| |] eqn:PW; try discriminate; [|eapply W; reflexivity].
      cbv zeta in H. destruct (tx_bufferFull (set_init false s0)).
      * destruct (tx_validate_wasm d (set_init false s0)); discriminate.
      * destruct (tx_parse_wasm d (set_init false s0)); try discriminate.
        destruct (tx_validate_wasm d (tx_parse_wasm_effect d (set_init false s0))); discriminate.
  - exact I.
Qed.

Lemma unknown_refused d s bs pin : pending s = None ->
  (SA.cla bs <> 17 -> step d s (Apdu bs pin) = Ret (s, Status [] SA.wrong_class)) /\
  (SA.cla bs = 17 -> zlen bs < 5 -> step d s (Apdu bs pin) = Ret (s, Status [] SA.wrong_size)) /\
  (SA.command bs = true -> ~ 0 <= SA.ins bs <= 4 -> step d s (Apdu bs pin) = Ret (s, Status [] SA.wrong_ins)) /\
  (SA.command bs = true -> 1 <= SA.ins bs <= 4 -> pin = false -> step d s (Apdu bs pin) = Ret (s, Status [] SA.not_allowed)).
Proof.
  intros P. unfold step. rewrite P. unfold handleApdu, throw. change (nth 0 bs 0) with (SA.cla bs). change (nth 1 bs 0) with (SA.ins bs).
  unfold SA.command. change (S.len bs) with (zlen bs).
  split; [|split; [|split]].
  - intros H. replace (SA.cla bs =? 17) with false by lia. reflexivity.
  - intros H L. rewrite H. replace (zlen bs <? 5) with true by lia. reflexivity.
  - intros H N. replace (SA.cla bs =? 17) with true by lia. replace (zlen bs <? 5) with false by lia. cbn [negb].
    unfold INS_GET_VERSION, INS_GET_ADDR, INS_SIGN, INS_SIGN_MSG, INS_SIGN_WASM.
    replace (SA.ins bs =? 0) with false by lia. replace (SA.ins bs =? 1) with false by lia. replace (SA.ins bs =? 2) with false by lia.
    replace (SA.ins bs =? 3) with false by lia. replace (SA.ins bs =? 4) with false by lia. reflexivity.
  - intros H N ->. replace (SA.cla bs =? 17) with true by lia. replace (zlen bs <? 5) with false by lia. cbn [negb].
    unfold INS_GET_VERSION, INS_GET_ADDR, INS_SIGN, INS_SIGN_MSG, INS_SIGN_WASM.
    replace (SA.ins bs =? 0) with false by lia.
    replace ((SA.ins bs =? 1) || (SA.ins bs =? 2) || (SA.ins bs =? 3) || (SA.ins bs =? 4)) with true by lia. reflexivity.
Qed.

(** * C38 *)
Record keys_ok (d : device) : Prop := { keys_33 : forall p k, pubkey d p = Some k -> zlen k = 33 /\ bytes k }.

Lemma fill_text d p a : device_ok d -> keys_ok d -> fill_address d p = Ret a ->
  exists k, pubkey d p = Some k /\ zlen k = 33 /\ a = k ++ S.text "02" ++ ST.cep57 (p_hash (plat d) k) k.
Proof.
  intros D [Kk] H. unfold fill_address in H. destruct (pubkey d p) as [k|] eqn:E; [|discriminate].
  destruct (Kk _ _ E) as [L B].
  rewrite encode_addr_ok in H; auto; try lia; [|intros x; apply (dev_hash d D)].
  injection H as <-. exists k. auto.
Qed.

Lemma address_answer d s bs s' ans : device_ok d -> keys_ok d -> pending s = None -> SA.address bs = true -> SA.p1 bs = 0 ->
  step d s (Apdu bs true) = Ret (s', Status ans SA.ok) ->
  exists k, pubkey d (SA.path bs) = Some k /\ zlen k = 33 /\ SA.casper_path (SA.path bs) /\
    ans = k ++ S.text "02" ++ ST.cep57 (p_hash (plat d) k) k.
Proof.
  intros D KO P AB P1' H. apply step_act in H; auto. pose proof (kind_seen bs true _ eq_refl) as KS.
  remember (Status ans SA.ok) as rp eqn:Er.
  acts H; rewrite K in *; cbn beta iota in *; try discriminate; try (destruct KS as (_ & KA & _); congruence).
  - destruct KS as [KS|(KA & _)]; congruence.
  - injection Er as <-. destruct (fill_text _ _ _ D KO Fi) as (k & X1 & X2 & X3). exists k. auto using path_ok_casper.
Qed.

Lemma address_shown d s tr : device_ok d -> keys_ok d -> reach d s tr -> pending s = Some RAddr ->
  exists tr0 bs st0 mid k,
    tr = tr0 ++ (Apdu bs true, st0, NoReply) :: mid /\ SA.address bs = true /\ SA.p1 bs <> 0 /\ pending st0 = None /\ Forall (ignored s) mid /\
    pubkey d (SA.path bs) = Some k /\ zlen k = 33 /\ SA.casper_path (SA.path bs) /\ hdPath s = SA.path bs /\
    (forall kl, review_item d s RAddr kl 0 = Ret (mkItem (S.text "Address") (VPaged (S.text "02" ++ ST.cep57 (p_hash (plat d) k) k)))) /\
    (forall ok, step d s (Approve ok) = Ret (set_pending None s, Status (k ++ S.text "02" ++ ST.cep57 (p_hash (plat d) k) k) SA.ok)).
Proof.
  intros D KO R P. pose proof (reach_opened _ _ _ D R) as O. unfold opened in O. rewrite P in O.
  destruct (O ltac:(discriminate)) as (tr0 & bs & pin & st & mid & -> & Ps & R0 & A & F).
  pose proof (act_opens _ _ _ _ _ _ A Ps P) as (a & -> & Ad & P1 & _ & Fa & An & Hp & PO).
  destruct (fill_text _ _ _ D KO Fa) as (k & X1 & X2 & X3).
  exists tr0, bs, st, mid, k. split; [reflexivity|]. split; [exact Ad|]. split; [exact P1|]. split; [exact Ps|]. split; [exact F|].
  split; [exact X1|]. split; [exact X2|]. split; [apply path_ok_casper; exact PO|]. split; [exact Hp|]. split.
  - intros kl. cbn [review_item]. unfold addr_getItem. rewrite An, X3.
    replace (firstn 33 (k ++ S.text "02" ++ ST.cep57 (p_hash (plat d) k) k)) with k.
    2:{ rewrite firstn_app. unfold zlen in X2. replace (33 - List.length k)%nat with 0%nat by lia. rewrite firstn_O, app_nil_r.
        symmetry. apply firstn_all2. lia. }
    destruct KO as [Kk]. destruct (Kk _ _ X1) as [_ B].
    rewrite encode_addr_ok; auto; try lia. intros x; apply (dev_hash d D).
  - intros ok. unfold step. rewrite P, An, X3. reflexivity.
Qed.
