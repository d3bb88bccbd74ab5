(** Two devices that differ in the sizes of their buffers only. *)
From Verif Require Import Base Zxlib Crypto Utils RuntimeArg Deploy DeployUI TxV1 TxV1UI Parser BaseFacts Spec Exec ArgsFacts ReaderFacts SpecText TextFacts Demo SpecApp SpecSess App AppFacts AppHist AppClaims AppSign SessFacts.

(** device [d] with other buffers *)
Definition resize (d : device) (r f : Z) : device :=
  mkDevice (plat d) r f (pubkey d) (bip32_text d) (version_bytes d) (junk_header d) (junk_hashpos d).

(** every chunk that is taken leaves at most [n] bytes collected *)
Definition room (n : Z) (e : event) (st : app) : Prop :=
  match e with
  | Apdu bs true => pending st = None -> tx_initialized st = true -> SA.chunk bs = true -> zlen (tx_data (bufs st)) + zlen (SA.payload bs) <= n
  | _ => True
  end.
Definition roomy (n : Z) (tr : list entry) : Prop := Forall (fun x => room n (fst (fst x)) (snd (fst x))) tr.

Section Two.
Variables (d : device) (r f n : Z).
Let d' := resize d r f.
Hypothesis D : device_ok d.
Hypothesis D' : device_ok d'.
Hypothesis N : n <= flash_size d.
Hypothesis N' : n <= flash_size d'.

Record twin (s1 s2 : app) : Prop := {
  tw_init : tx_initialized s1 = tx_initialized s2; tw_full1 : tx_bufferFull s1 = false; tw_full2 : tx_bufferFull s2 = false;
  tw_path : hdPath s1 = hdPath s2; tw_expert : expert_mode s1 = expert_mode s2; tw_pending : pending s1 = pending s2;
  tw_type : obj_type s1 = obj_type s2; tw_head : obj_header s1 = obj_header s2; tw_v1 : obj_v1 s1 = obj_v1 s2; tw_answer : answer s1 = answer s2;
  tw_buf1 : buf_ok d (bufs s1); tw_buf2 : buf_ok d' (bufs s2); tw_data : tx_data (bufs s1) = tx_data (bufs s2);
  tw_content : ccontent (ctx s1) = ccontent (ctx s2); tw_obj : cobj_v1 (ctx s1) = cobj_v1 (ctx s2);
  tw_ctx : pending s1 = Some RMsg \/ pending s1 = Some RWasm -> clen (ctx s1) = clen (ctx s2) /\ ctx_data (bufs s1) (ctx s1) = ctx_data (bufs s2) (ctx s2) }.

Ltac off := intros [?|?]; cbn in *; congruence.
Lemma boot_twin : twin (boot d) (boot d').
Proof. constructor; try reflexivity; auto using boot_buf. Qed.

(** the same result on both *)
Definition both (o1 o2 : result) : Prop :=
  match o1, o2 with
  | Ret (s1, r1), Ret (s2, r2) => r1 = r2 /\ twin s1 s2
  | Fail e1, Fail e2 => e1 = e2
  | Undef u1, Undef u2 => u1 = u2
  | _, _ => False
  end.
Definition both_chunk (x y : chunk) : Prop :=
  match x, y with
  | More a, More b | LastChunk a, LastChunk b => twin a b /\ pending a = None
  | Threw e a, Threw g b => e = g /\ twin a b /\ pending a = None
  | _, _ => False
  end.

Ltac tw T := destruct T as [Ti Tf1 Tf2 Tp Te Td Tt Th Tv Ta Tb1 Tb2 Tx Tc To Tq].

Lemma twin_init s1 s2 b : twin s1 s2 -> pending s1 = None -> twin (set_init b s1) (set_init b s2).
Proof. intros T P. tw T. constructor; cbn; auto; try off. Qed.
Lemma twin_full s1 s2 : twin s1 s2 -> pending s1 = None -> twin (set_full false s1) (set_full false s2).
Proof. intros T P. tw T. constructor; cbn; auto; try off. Qed.
Lemma twin_path s1 s2 p : twin s1 s2 -> pending s1 = None -> twin (set_path p s1) (set_path p s2).
Proof. intros T P. tw T. constructor; cbn; auto; try off. Qed.
Lemma twin_bufs s1 s2 b1 b2 : twin s1 s2 -> pending s1 = None -> buf_ok d b1 -> buf_ok d' b2 -> tx_data b1 = tx_data b2 -> twin (set_bufs b1 s1) (set_bufs b2 s2).
Proof. intros T P B1 B2 E. tw T. constructor; cbn; auto; try off. Qed.
Lemma reset_ok e b : device_ok e -> buf_ok e b -> buf_ok e (buf_reset b).
Proof. intros [_ ? ? ?] [? ? ? ? ?]. constructor; cbn; auto; lia. Qed.

Lemma extract_twin bs s1 s2 : twin s1 s2 -> pending s1 = None ->
  snd (extractHDPath bs s1) = snd (extractHDPath bs s2) /\ twin (fst (extractHDPath bs s1)) (fst (extractHDPath bs s2)) /\ pending (fst (extractHDPath bs s1)) = None.
Proof. intros T P. unfold extractHDPath. destruct (_ <? _); (split; [reflexivity|]); cbn [fst]; auto using twin_path. Qed.
Lemma chunk_init_twin bs s1 s2 : twin s1 s2 -> pending s1 = None ->
  snd (chunk_init bs s1) = snd (chunk_init bs s2) /\ twin (fst (chunk_init bs s1)) (fst (chunk_init bs s2)) /\ pending (fst (chunk_init bs s1)) = None.
Proof.
  intros T P. unfold chunk_init. apply extract_twin; [|exact P]. apply twin_bufs; auto; try (apply reset_ok; auto; apply T).
Qed.
Lemma append_fits e b bs b' k : device_ok e -> buf_ok e b -> buf_append (ram_size e) (flash_size e) b bs = (b', k) -> zlen (tx_data b) + zlen bs <= flash_size e ->
  k = zlen bs /\ buf_ok e b' /\ tx_data b' = tx_data b ++ bs.
Proof.
  intros De B A L. assert (k = zlen bs) as ->.
  { destruct (Z.eq_dec k (zlen bs)) as [|Nk]; [assumption|]. pose proof (append_full _ _ _ _ _ De B A Nk). lia. }
  destruct (append_ok _ _ _ _ _ De B A) as (B' & Q). split; [reflexivity|]. split; [exact B'|]. destruct Q as [[_ Q]|(Z0 & Zp & _)]; [exact Q | lia].
Qed.
Lemma append_twin bs s1 s2 : twin s1 s2 -> pending s1 = None -> zlen (tx_data (bufs s1)) + zlen (data_of bs) <= n ->
  exists a b, append_chunk d s1 bs = (a, true) /\ append_chunk d' s2 bs = (b, true) /\ twin a b /\ pending a = None.
Proof.
  intros T P L. unfold append_chunk. destruct (buf_append (ram_size d) (flash_size d) (bufs s1) (data_of bs)) as [b1 k1] eqn:A1.
  destruct (buf_append (ram_size d') (flash_size d') (bufs s2) (data_of bs)) as [b2 k2] eqn:A2.
  destruct (append_fits d _ _ _ _ D (tw_buf1 _ _ T) A1 ltac:(lia)) as (-> & B1 & E1).
  destruct (append_fits d' _ _ _ _ D' (tw_buf2 _ _ T) A2 ltac:(rewrite <- (tw_data _ _ T); lia)) as (-> & B2 & E2).
  rewrite (Z.eqb_refl (zlen (data_of bs))). eexists _, _. split; [reflexivity|]. split; [reflexivity|]. split; [|exact P].
  apply twin_bufs; auto. rewrite E1, E2, (tw_data _ _ T). reflexivity.
Qed.

Lemma process_twin bs s1 s2 : twin s1 s2 -> pending s1 = None ->
  (tx_initialized s1 = true -> P2_of bs = 0 -> P1_of bs = 1 \/ P1_of bs = 2 -> zlen (tx_data (bufs s1)) + zlen (data_of bs) <= n) ->
  both_chunk (process_chunk d bs s1) (process_chunk d' bs s2).
Proof.
  intros T P L. unfold process_chunk. destruct (P2_of bs =? 0) eqn:E2; cbn [negb]; [|cbn; auto].
  destruct (P1_of bs =? 0) eqn:E0.
  { destruct (chunk_init_twin bs s1 s2 T P) as (E & T' & P'). destruct (chunk_init bs s1) as [a x], (chunk_init bs s2) as [b y].
    cbn [fst snd] in *. subst y. destruct x; cbn; auto using twin_init. }
  destruct (_ || _) eqn:E1; [|cbn; auto using twin_init].
  rewrite <- (tw_init _ _ T). destruct (tx_initialized s1) eqn:I; cbn [negb]; [|cbn; auto].
  destruct (append_twin bs s1 s2 T P) as (a & b & -> & -> & T' & P'); [apply L; auto; lia|].
  destruct (P1_of bs =? 1); cbn; auto.
Qed.

Lemma addr_twin bs s1 s2 : twin s1 s2 -> pending s1 = None -> both (handleGetAddr d bs s1) (handleGetAddr d' bs s2).
Proof.
  intros T P. unfold handleGetAddr. destruct (extract_twin bs s1 s2 T P) as (E & T' & P').
  destruct (extractHDPath bs s1) as [a x], (extractHDPath bs s2) as [b y]. cbn [fst snd] in *. subst y.
  destruct x; [split; auto|]. rewrite <- (tw_path _ _ T').
  assert (X : forall v, twin (set_answer v a) (set_answer v b)).
  { intros v. tw T'. constructor; cbn; auto. }
  change (fill_address d' (hdPath a)) with (fill_address d (hdPath a)).
  destruct (fill_address d (hdPath a)) as [v|e|u]; [|split; auto|reflexivity].
  destruct (_ =? _); (split; [reflexivity|]); auto. specialize (X v). 
  tw X. constructor; cbn; auto. off.
Qed.

Lemma sign_twin bs s1 s2 : twin s1 s2 -> pending s1 = None ->
  (tx_initialized s1 = true -> P2_of bs = 0 -> P1_of bs = 1 \/ P1_of bs = 2 -> zlen (tx_data (bufs s1)) + zlen (data_of bs) <= n) ->
  both (handleSign d bs s1) (handleSign d' bs s2).
Proof.
  intros T P L. unfold handleSign. pose proof (process_twin bs s1 s2 T P L) as C.
  destruct (process_chunk d bs s1) as [a|a|e a], (process_chunk d' bs s2) as [b|b|g b]; try contradiction; cbn [both_chunk] in C.
  - split; tauto.
  - destruct C as [T' P']. apply (twin_init _ _ false) in T'; auto. cbv zeta. 
    assert (Pa : pending (set_init false a) = None) by exact P'. revert T' Pa. generalize (set_init false a) (set_init false b). clear - D. intros x y T' Pa.
    assert (X : twin (tx_parse_effect d x) (tx_parse_effect d' y)).
    { destruct (tpe d x) as (A1 & A2 & A3 & A4 & A5 & A6 & A7). destruct (tpe d' y) as (B1 & B2 & B3 & B4 & B5 & B6 & B7). tw T'.
      constructor; try congruence; try off.
      all: unfold tx_parse_effect; rewrite <- Tx, <- Te; change (plat d') with (plat d); change (junk_header d') with (junk_header d); change (junk_hashpos d') with (junk_hashpos d);
        destruct (tx_data (bufs x)) as [|k rest]; cbn; auto;
        repeat match goal with |- context [match ?c with _ => _ end] => destruct c; cbn; auto end. }
    change (plat d') with (plat d). rewrite <- (tw_data _ _ T'), <- (tw_expert _ _ T').
    destruct (tx_parse _ _ _) as [t|e|u]; [|split; auto|reflexivity]. split; [reflexivity|]. tw X. constructor; cbn; auto. off.
  - destruct C as (-> & C & _). split; auto.
Qed.

Lemma ctx_both x y c1 c2 v1 v2 : twin x y -> ctx_data (bufs x) (here x 0 (u16 (zlen (tx_data (bufs x)))) v1 c1) = ctx_data (bufs y) (here y 0 (u16 (zlen (tx_data (bufs x)))) v2 c2).
Proof.
  intros T. pose proof (ctx_whole d x c1 D (tw_buf1 _ _ T)) as Wx. pose proof (ctx_whole d' y c2 D' (tw_buf2 _ _ T)) as Wy.
  unfold ctx_data in *. cbn [here cbuf clen] in *. rewrite <- (tw_data _ _ T) in Wy. congruence.
Qed.

Lemma msg_twin bs s1 s2 : twin s1 s2 -> pending s1 = None ->
  (tx_initialized s1 = true -> P2_of bs = 0 -> P1_of bs = 1 \/ P1_of bs = 2 -> zlen (tx_data (bufs s1)) + zlen (data_of bs) <= n) ->
  both (handleSignMessage d bs s1) (handleSignMessage d' bs s2).
Proof.
  intros T P L. unfold handleSignMessage. pose proof (process_twin bs s1 s2 T P L) as C.
  destruct (process_chunk d bs s1) as [a|a|e a], (process_chunk d' bs s2) as [b|b|g b]; try contradiction; cbn [both_chunk] in C.
  - split; tauto.
  - destruct C as [T' Pa].
    destruct (tpm a) as (A1 & A2 & A3 & A4 & A5 & A6 & A7). destruct (tpm b) as (B1 & B2 & B3 & B4 & B5 & B6 & B7).
    assert (X : twin (tx_parse_message_effect a) (tx_parse_message_effect b)).
    { tw T'. constructor; try congruence; try off.
      all: unfold tx_parse_message_effect; rewrite <- Tx; destruct (tx_data (bufs a)) as [|k rest]; cbn; auto. }
    rewrite <- (tw_data _ _ T').
    destruct (parser_parse_message (tx_data (bufs a))) as [t|e|u] eqn:M; [|split; auto|reflexivity]. split; [reflexivity|].
    pose proof (ctx_both a b (ccontent (ctx a)) (ccontent (ctx b)) false false T') as Q.
    tw X. constructor; cbn; auto. intros _. rewrite A4, B4. unfold tx_parse_message_effect. rewrite <- (tw_data _ _ T').
    destruct (tx_data (bufs a)) as [|k rest]; [discriminate|]. split; [reflexivity|]. exact Q.
  - destruct C as (-> & C & _). split; auto.
Qed.

Lemma wasm_twin bs s1 s2 : twin s1 s2 -> pending s1 = None ->
  (tx_initialized s1 = true -> P2_of bs = 0 -> P1_of bs = 1 \/ P1_of bs = 2 -> zlen (tx_data (bufs s1)) + zlen (data_of bs) <= n) ->
  both (handleSignWasm d bs s1) (handleSignWasm d' bs s2).
Proof.
  intros T P L. unfold handleSignWasm.
  assert (C : exists x y, process_wasm_chunk d bs s1 = Ret x /\ process_wasm_chunk d' bs s2 = Ret y /\ both_chunk x y).
  { unfold process_wasm_chunk. destruct (P2_of bs =? 0) eqn:E2; cbn [negb]; [|eexists _, _; (split; [reflexivity|]); (split; [reflexivity|]); cbn; auto].
    destruct (P1_of bs =? 0) eqn:E0.
    { destruct (chunk_init_twin bs s1 s2 T P) as (E & T' & P'). destruct (chunk_init bs s1) as [a x], (chunk_init bs s2) as [b y].
      cbn [fst snd] in *. subst y. destruct x; eexists _, _; (split; [reflexivity|]); (split; [reflexivity|]); cbn; auto using twin_init, twin_full. }
    destruct (_ || _) eqn:E1; [|eexists _, _; (split; [reflexivity|]); (split; [reflexivity|]); cbn; auto using twin_init].
    rewrite <- (tw_init _ _ T). destruct (tx_initialized s1) eqn:I; cbn [negb]; [|eexists _, _; (split; [reflexivity|]); (split; [reflexivity|]); cbn; auto].
    destruct (append_twin bs s1 s2 T P) as (a & b & Ea & Eb & T' & P'); [apply L; auto; lia|].
    unfold wasm_append. rewrite Ea, Eb, (tw_full1 _ _ T'), (tw_full2 _ _ T'). cbn [negb andb].
    destruct (P1_of bs =? 1); eexists _, _; (split; [reflexivity|]); (split; [reflexivity|]); cbn; auto. }
  destruct C as (x & y & -> & -> & C).
  destruct x as [a|a|e a], y as [b|b|g b]; try contradiction; cbn [both_chunk] in C.
  - split; tauto.
  - destruct C as [T' P']. apply (twin_init _ _ false) in T'; auto. cbv zeta. 
    assert (Pa : pending (set_init false a) = None) by exact P'. revert T' Pa. generalize (set_init false a) (set_init false b). clear - D D'. intros x y T' Pa.
    rewrite (tw_full1 _ _ T'), (tw_full2 _ _ T').
    assert (W : tx_parse_wasm d' y = tx_parse_wasm d x).
    { unfold tx_parse_wasm. rewrite (tw_data _ _ T'), (tw_expert _ _ T'), (tw_content _ _ T'). reflexivity. }
    destruct (tpw d x) as (A1 & A2 & A3 & A4 & A5 & A6 & A7). destruct (tpw d' y) as (B1 & B2 & B3 & B4 & B5 & B6 & B7).
    assert (X : twin (tx_parse_wasm_effect d x) (tx_parse_wasm_effect d' y)).
    { tw T'. constructor; try congruence; try off.
      all: unfold tx_parse_wasm_effect; rewrite W, <- Tx; destruct (tx_data (bufs x)) as [|k rest]; cbn; auto. }
    rewrite W. destruct (tx_parse_wasm d x) as [h|e|u] eqn:M; [|split; auto|reflexivity].
    pose proof (wasm_empty _ _ _ M) as Ne.
    assert (Q : clen (ctx (tx_parse_wasm_effect d x)) = clen (ctx (tx_parse_wasm_effect d' y)) /\ ctx_data (bufs (tx_parse_wasm_effect d x)) (ctx (tx_parse_wasm_effect d x)) = ctx_data (bufs (tx_parse_wasm_effect d' y)) (ctx (tx_parse_wasm_effect d' y))).
    { rewrite A4, B4. pose proof (ctx_both x y (ccontent (ctx x)) (ccontent (ctx y)) false false T') as Q.
      unfold tx_parse_wasm_effect. rewrite <- (tw_data _ _ T'). destruct (tx_data (bufs x)) as [|k rest]; [congruence|]. split; [reflexivity|]. exact Q. }
    revert X Q. generalize (tx_parse_wasm_effect d x) (tx_parse_wasm_effect d' y). clear. intros x y X [Q1 Q2].
    assert (V : tx_validate_wasm d' y = tx_validate_wasm d x).
    { unfold tx_validate_wasm, wasm_run, wasm_header. rewrite <- Q2, <- Q1, (tw_obj _ _ X), (tw_head _ _ X), (tw_expert _ _ X). reflexivity. }
    rewrite V. destruct (tx_validate_wasm d x); [|split; auto|reflexivity]. split; [reflexivity|]. tw X. constructor; cbn; auto.
  - destruct C as (-> & C & _). split; auto.
Qed.

Definition same_view (s1 s2 : app) : Prop :=
  pending s1 = pending s2 /\
  forall r, pending s1 = Some r -> review_count s1 r = review_count s2 r /\
    forall kl i, review_item d s1 r kl i = review_item d' s2 r kl i.
Lemma twin_view s1 s2 : twin s1 s2 -> same_view s1 s2.
Proof.
  intros T. tw T. split; [exact Td|]. intros q P. split.
  - destruct q; cbn [review_count]; rewrite ?Te; reflexivity.
  - intros kl i. destruct q; cbn [review_item].
    + rewrite Te, Tx. reflexivity.
    + destruct Tq as [_ Q]; auto. rewrite Q. reflexivity.
    + destruct Tq as [Q1 Q2]; auto. unfold wasm_run, wasm_header. rewrite <- Q2, <- Q1, To, Th, Te. reflexivity.
    + unfold addr_getItem. rewrite Ta, Te, Tp. reflexivity.
Qed.

Lemma sign_both s1 s2 : twin s1 s2 -> app_sign d s1 = app_sign d' s2.
Proof. intros T. tw T. unfold app_sign, sign_preimage. rewrite Tx, Tp, Tc, Tt, Th, Tv. reflexivity. Qed.

Lemma step_twin s1 s2 e : twin s1 s2 -> room n e s1 -> both (step d s1 e) (step d' s2 e).
Proof.
  intros T L. unfold step. rewrite <- (tw_pending _ _ T). destruct (pending s1) as [q|] eqn:P.
  - assert (Z : twin (set_pending None s1) (set_pending None s2)) by (tw T; constructor; cbn; auto; off).
    destruct e as [bs pin|ok| |x]; try (split; [reflexivity | assumption]).
    destruct q; [| | |split; [rewrite (tw_answer _ _ T); reflexivity | exact Z]];
      (destruct ok; [|split; [reflexivity | exact Z]]; rewrite <- (sign_both _ _ T); destruct (app_sign d s1); cbn; auto).
  - destruct e as [bs pin|ok| |x]; try (split; [reflexivity | assumption]).
    + unfold handleApdu, throw. destruct (negb _) eqn:E0; [split; auto|]. destruct (_ <? 5) eqn:E5; [split; auto|]. cbv zeta.
      destruct (_ =? INS_GET_VERSION); [split; auto|]. destruct ((_ || _) || _) eqn:Ei; [|split; auto]. destruct pin; cbn [negb]; [|split; auto].
      destruct (_ =? INS_GET_ADDR) eqn:I1; [apply addr_twin; auto|].
      assert (L' : tx_initialized s1 = true -> P2_of bs = 0 -> P1_of bs = 1 \/ P1_of bs = 2 -> zlen (tx_data (bufs s1)) + zlen (data_of bs) <= n).
      { intros X X2 X1. apply L; auto. unfold SA.chunk, SA.signing, SA.command, SA.cla, SA.ins, SA.p1, SA.p2. change (S.len bs) with (zlen bs).
        unfold P1_of, P2_of in *. unfold INS_GET_ADDR, INS_SIGN, INS_SIGN_MSG, INS_SIGN_WASM in *. lia. }
      destruct (_ =? INS_SIGN); [apply sign_twin; auto|]. destruct (_ =? INS_SIGN_MSG); [apply msg_twin; auto|]. apply wasm_twin; auto.
    + split; [reflexivity|]. tw T. constructor; cbn; auto; off.
Qed.

Definition same_point (x y : entry) : Prop := fst (fst x) = fst (fst y) /\ snd x = snd y /\ same_view (snd (fst x)) (snd (fst y)).
Lemma run_twin es : forall s1 s2 s1' tr1, twin s1 s2 -> run d s1 es = Ret (s1', tr1) -> roomy n tr1 ->
  exists s2' tr2, run d' s2 es = Ret (s2', tr2) /\
    Forall2 same_point tr1 tr2 /\ same_view s1' s2'.
Proof.
  induction es as [|e es IH]; intros s1 s2 s1' tr1 T R L; cbn [run] in *.
  - injection R as <- <-. exists s2, []. split; [reflexivity|]. split; [constructor | apply twin_view; exact T].
  - destruct (step d s1 e) as [[a ra]| |] eqn:E; try discriminate. destruct (run d a es) as [[a' ta]| |] eqn:Ra; try discriminate. injection R as <- <-.
    inversion L as [|? ? L1 L2]; subst. cbn [fst snd] in L1. pose proof (step_twin s1 s2 e T L1) as B. rewrite E in B.
    destruct (step d' s2 e) as [[b rb]| |]; try contradiction. destruct B as [<- T'].
    destruct (IH a b a' ta T' Ra L2) as (s2' & tr2 & R2 & F & V). exists s2', ((e, s2, ra) :: tr2). rewrite R2. split; [reflexivity|]. split; [|exact V].
    constructor; [|exact F]. split; [reflexivity|]. split; [reflexivity|]. apply twin_view; exact T.
Qed.
End Two.

Lemma sizes_alike d r f n es s1 tr1 : device_ok d -> device_ok (resize d r f) -> n <= flash_size d -> n <= f ->
  run d (boot d) es = Ret (s1, tr1) -> roomy n tr1 ->
  exists s2 tr2, run (resize d r f) (boot (resize d r f)) es = Ret (s2, tr2) /\
    Forall2 (same_point d r f) tr1 tr2 /\ same_view d r f s1 s2.
Proof. intros D D' N N' R L. eapply run_twin; eauto. apply boot_twin; auto. Qed.
