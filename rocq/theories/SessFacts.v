(** Sessions: what a session leaves behind does not depend on what was before. *)
From Verif Require Import Base Zxlib Crypto Utils RuntimeArg Deploy DeployUI TxV1 TxV1UI Parser BaseFacts Spec Exec ArgsFacts ReaderFacts SpecText TextFacts Demo SpecApp SpecSess App AppFacts AppHist AppClaims AppSign.

(** * Observations *)
(** what the user sees in two states *)
Definition same_screen (d : device) (s1 s2 : app) : Prop :=
  pending s1 = pending s2 /\
  forall r, pending s1 = Some r -> review_count s1 r = review_count s2 r /\
    forall kl i, review_item d s1 r kl i = review_item d s2 r kl i.
(** the same event, seen and answered in the same way *)
Definition same_entry (d : device) (x y : entry) : Prop :=
  fst (fst x) = fst (fst y) /\ snd x = snd y /\ same_screen d (snd (fst x)) (snd (fst y)).
(** every signing command among the events is of kind [i] *)
Definition only (i : Z) (es : list event) : Prop :=
  Forall (fun e => match e with Apdu bs _ => SA.signing bs = true -> SA.ins bs = i | _ => True end) es.

(** * Buffers that agree on what was written *)
Record bsim (d : device) (m : Z) (b1 b2 : buffers) : Prop := {
  bs_ok1 : buf_ok d b1; bs_ok2 : buf_ok d b2;
  bs_in : in_ram b1 = in_ram b2; bs_rpos : rpos b1 = rpos b2; bs_fpos : fpos b1 = fpos b2;
  bs_ram : firstn (Z.to_nat (rpos b1)) (ram b1) = firstn (Z.to_nat (rpos b1)) (ram b2);
  bs_m : fpos b1 <= m <= flash_size d;
  bs_flash : firstn (Z.to_nat m) (flash b1) = firstn (Z.to_nat m) (flash b2) }.

Lemma firstn_le {A} (n m : nat) (a b : list A) : (n <= m)%nat -> firstn m a = firstn m b -> firstn n a = firstn n b.
Proof. intros L E. rewrite <- (Nat.min_l n m L), <- !firstn_firstn, E. reflexivity. Qed.
Lemma bsim_data d m b1 b2 : bsim d m b1 b2 -> tx_data b1 = tx_data b2.
Proof.
  intros [O1 O2 I R F Rm M Fl]. unfold tx_data. rewrite <- I. destruct (in_ram b1).
  - rewrite <- R. exact Rm.
  - rewrite <- F. apply (firstn_le _ (Z.to_nat m)); [lia | exact Fl].
Qed.

Lemma firstn_overwrite a pos bs m : 0 <= pos <= m -> pos + zlen bs <= zlen a ->
  firstn (Z.to_nat (Z.max m (pos + zlen bs))) (overwrite a pos bs) =
  firstn (Z.to_nat pos) a ++ bs ++ skipn (Z.to_nat pos + List.length bs) (firstn (Z.to_nat m) a).
Proof.
  intros P L. pose proof (zlen_nonneg bs). unfold overwrite, zlen in *.
  rewrite firstn_app, firstn_firstn, firstn_app, !firstn_length.
  rewrite Nat.min_r by lia.
  rewrite (Nat.min_l (Z.to_nat pos) (List.length a)) by lia.
  rewrite (firstn_all2 bs) by lia. do 2 f_equal.
  rewrite skipn_firstn_comm. f_equal. lia.
Qed.

Lemma flash_sim d m b1 b2 bs : device_ok d -> bsim d m b1 b2 -> in_ram b1 = false ->
  exists m', m <= m' /\ snd (flash_append (flash_size d) b1 bs) = snd (flash_append (flash_size d) b2 bs) /\
    bsim d m' (fst (flash_append (flash_size d) b1 bs)) (fst (flash_append (flash_size d) b2 bs)).
Proof.
  intros D S I. pose proof S as [O1 O2 I12 R F Rm M Fl]. pose proof (zlen_nonneg bs).
  destruct (flash_append (flash_size d) b1 bs) as [c1 n1] eqn:E1. destruct (flash_append (flash_size d) b2 bs) as [c2 n2] eqn:E2.
  destruct (flash_append_ok d _ _ _ _ O1 I E1) as (C1 & _). assert (I2 : in_ram b2 = false) by congruence.
  destruct (flash_append_ok d _ _ _ _ O2 I2 E2) as (C2 & _). cbn [fst snd].
  unfold flash_append in E1, E2. rewrite <- F in E2. destruct O1 as [A1 A2 A3 A4 A5], O2 as [B1 B2 B3 B4 B5].
  destruct (fpos b1 + zlen bs <=? flash_size d) eqn:Ef; injection E1 as <- <-; injection E2 as <- <-.
  - exists (Z.max m (fpos b1 + zlen bs)). split; [lia|]. split; [reflexivity|]. constructor; auto.
    + cbn [fpos]. lia.
    + cbn [flash]. rewrite !firstn_overwrite by lia. rewrite Fl. f_equal. apply (firstn_le _ (Z.to_nat m)); [lia | exact Fl].
  - exists m. split; [lia|]. split; [reflexivity | exact S].
Qed.

Lemma append_sim d m b1 b2 bs : device_ok d -> bsim d m b1 b2 ->
  exists m', m <= m' /\ snd (buf_append (ram_size d) (flash_size d) b1 bs) = snd (buf_append (ram_size d) (flash_size d) b2 bs) /\
    bsim d m' (fst (buf_append (ram_size d) (flash_size d) b1 bs)) (fst (buf_append (ram_size d) (flash_size d) b2 bs)).
Proof.
  intros D S. pose proof S as [O1 O2 I12 R F Rm M Fl]. pose proof (zlen_nonneg bs).
  destruct (buf_append (ram_size d) (flash_size d) b1 bs) as [c1 n1] eqn:E1.
  destruct (buf_append (ram_size d) (flash_size d) b2 bs) as [c2 n2] eqn:E2.
  destruct (append_ok d _ _ _ _ D O1 E1) as (C1 & _). destruct (append_ok d _ _ _ _ D O2 E2) as (C2 & _). cbn [fst snd].
  unfold buf_append in E1, E2. rewrite <- I12, <- R in E2. destruct (in_ram b1) eqn:I.
  - destruct (rpos b1 + zlen bs <=? ram_size d) eqn:Er.
    + injection E1 as <- <-; injection E2 as <- <-. exists m. split; [lia|]. split; [reflexivity|]. constructor; auto.
      * cbn [rpos ram]. destruct O1 as [A1 A2 A3 A4 A5], O2 as [B1 B2 B3 B4 B5].
        rewrite !overwrite_prefix by lia. rewrite Rm. reflexivity.
    + set (u1 := mkBuf (ram b1) (flash b1) false (rpos b1) (fpos b1)) in *.
      set (u2 := mkBuf (ram b2) (flash b2) false (rpos b1) (fpos b2)) in *.
      assert (U : bsim d m u1 u2).
      { destruct O1 as [A1 A2 A3 A4 A5], O2 as [B1 B2 B3 B4 B5].
        constructor; unfold u1, u2; cbn [ram flash in_ram rpos fpos]; auto; constructor; cbn [ram flash in_ram rpos fpos]; auto; try discriminate; lia. }
      set (v1 := if 0 <? rpos b1 then fst (flash_append (flash_size d) u1 (firstn (Z.to_nat (rpos b1)) (ram b1))) else u1) in *.
      set (v2 := if 0 <? rpos b1 then fst (flash_append (flash_size d) u2 (firstn (Z.to_nat (rpos b1)) (ram b2))) else u2) in *.
      assert (V : exists m', m <= m' /\ bsim d m' v1 v2 /\ in_ram v1 = false).
      { unfold v1, v2. destruct (0 <? rpos b1); [|exists m; split; [lia|]; split; [exact U | reflexivity]].
        rewrite <- Rm. destruct (flash_sim d m u1 u2 (firstn (Z.to_nat (rpos b1)) (ram b1)) D U eq_refl) as (m' & L & _ & X).
        exists m'. split; [exact L|]. split; [exact X|].
        unfold flash_append. destruct (fpos u1 + _ <=? _); reflexivity. }
      destruct V as (m1 & L1 & V & Iv). destruct (flash_sim d m1 v1 v2 bs D V Iv) as (m2 & L2 & N & W).
      destruct (flash_append (flash_size d) v1 bs) as [w1 k1]. destruct (flash_append (flash_size d) v2 bs) as [w2 k2].
      cbn [fst snd] in N, W. injection E1 as <- <-; injection E2 as <- <-. exists m2. split; [lia|]. split; [exact N|].
      destruct W as [W1 W2 W3 W4 W5 W6 W7 W8]. constructor; cbn [ram flash in_ram rpos fpos]; auto.
  - destruct (flash_sim d m b1 b2 bs D S I) as (m' & L & N & W). rewrite E1, E2 in N, W. exists m'. auto.
Qed.

Lemma reset_sim d b1 b2 : device_ok d -> buf_ok d b1 -> buf_ok d b2 -> bsim d 0 (buf_reset b1) (buf_reset b2).
Proof.
  intros [_ D1 D2 _] [? ? ? ? ?] [? ? ? ? ?]. constructor; cbn; auto; try lia; constructor; cbn; auto; lia.
Qed.

(** * States that a session of kind [i] does not tell apart *)
Record parsed (c1 c2 : pctx) (t1 t2 : Z) (h1 h2 : header_deploy) (m : Z) : Prop := {
  pa_ctx : c1 = c2; pa_type : t1 = t2; pa_head : h1 = h2;
  pa_v1 : cobj_v1 c1 = false; pa_len : 0 <= clen c1 <= m; pa_buf : cbuf c1 = Some (false, 0) }.

Definition on_screen (s1 s2 : app) (r : review) : Prop :=
  match r with
  | RTx t => ccontent (ctx s1) = ccontent (ctx s2) /\
      (ccontent (ctx s1) = 0 -> obj_type s1 = obj_type s2 /\ obj_header s1 = obj_header s2) /\
      (ccontent (ctx s1) <> 0 -> obj_v1 s1 = obj_v1 s2)
  | RMsg => ccontent (ctx s1) = 0 /\ ccontent (ctx s2) = 0 /\ obj_type s1 = obj_type s2 /\ obj_header s1 = obj_header s2 /\
      ctx_data (bufs s1) (ctx s1) = ctx_data (bufs s2) (ctx s2)
  | RWasm => ccontent (ctx s1) = 0 /\ ccontent (ctx s2) = 0 /\ obj_type s1 = obj_type s2 /\ obj_header s1 = obj_header s2 /\
      ctx s1 = ctx s2 /\ cobj_v1 (ctx s1) = false /\ ctx_data (bufs s1) (ctx s1) = ctx_data (bufs s2) (ctx s2)
  | RAddr => answer s1 = answer s2
  end.

Record sim (d : device) (i m : Z) (s1 s2 : app) : Prop := {
  sm_init : tx_initialized s1 = tx_initialized s2; sm_path : hdPath s1 = hdPath s2;
  sm_expert : expert_mode s1 = expert_mode s2; sm_pending : pending s1 = pending s2;
  sm_bufs : bsim d m (bufs s1) (bufs s2);
  sm_kind : i = 2 \/ (ccontent (ctx s1) = 0 /\ ccontent (ctx s2) = 0);
  sm_full : i = 4 -> tx_bufferFull s1 = tx_bufferFull s2 /\ (tx_bufferFull s1 = true -> parsed (ctx s1) (ctx s2) (obj_type s1) (obj_type s2) (obj_header s1) (obj_header s2) m);
  sm_screen : forall r, pending s1 = Some r -> on_screen s1 s2 r }.

Definition osim (d : device) (i : Z) (o1 o2 : result) : Prop :=
  match o1, o2 with
  | Ret (s1, r1), Ret (s2, r2) => r1 = r2 /\ exists m, sim d i m s1 s2
  | Fail e1, Fail e2 => e1 = e2
  | Undef u1, Undef u2 => u1 = u2
  | _, _ => False
  end.

Lemma sim_screen d i m s1 s2 : sim d i m s1 s2 -> same_screen d s1 s2.
Proof.
  intros [Si Sp Se Sd Sb Sk Sf Ss]. split; [exact Sd|]. intros r P. specialize (Ss r P). rewrite P in Sd. symmetry in Sd.
  split.
  - destruct r; cbn [review_count]; rewrite ?Se; reflexivity.
  - intros kl k. destruct r; cbn [review_item on_screen] in *.
    + rewrite Se, (bsim_data _ _ _ _ Sb). reflexivity.
    + destruct Ss as (_ & _ & _ & _ & ->). reflexivity.
    + destruct Ss as (_ & _ & _ & Hh & Hc & Hv & Hd). unfold wasm_run, wasm_header. rewrite Hd, <- Hc, Hv, Hh, Se. reflexivity.
    + unfold addr_getItem. rewrite Ss, Se, Sp. reflexivity.
Qed.

Lemma sign_sim d i m s1 s2 r : sim d i m s1 s2 -> pending s1 = Some r -> r <> RAddr -> app_sign d s1 = app_sign d s2.
Proof.
  intros [Si Sp Se Sd Sb Sk Sf Ss] P Nr. specialize (Ss r P). unfold app_sign, sign_preimage.
  rewrite (bsim_data _ _ _ _ Sb), Sp.
  assert (X : ccontent (ctx s1) = ccontent (ctx s2) /\
      (ccontent (ctx s1) = 0 -> obj_type s1 = obj_type s2 /\ obj_header s1 = obj_header s2) /\
      (ccontent (ctx s1) <> 0 -> obj_v1 s1 = obj_v1 s2)).
  { destruct r; cbn [on_screen] in Ss; [exact Ss| | |congruence].
    - destruct Ss as (-> & -> & -> & -> & _). split; [reflexivity|]. split; [auto | congruence].
    - destruct Ss as (-> & -> & -> & -> & _). split; [reflexivity|]. split; [auto | congruence]. }
  destruct X as (C & O & V). rewrite <- C. unfold content_Deploy.
  destruct (ccontent (ctx s1) =? 0) eqn:E.
  - destruct (O ltac:(lia)) as [-> ->]. reflexivity.
  - rewrite (V ltac:(lia)). reflexivity.
Qed.

(** * Commands *)
Lemma sim_idle d i m s1 s2 : sim d i m s1 s2 -> pending s1 = None -> pending s2 = None.
Proof. intros [] P. congruence. Qed.
Lemma bsim_reset d m b1 b2 : bsim d m b1 b2 -> bsim d m (buf_reset b1) (buf_reset b2).
Proof.
  intros [[? ? ? ? ?] [? ? ? ? ?] I R F Rm M Fl]. constructor; cbn; auto; try lia; constructor; cbn; auto; lia.
Qed.
Ltac idle := intros ? ?; congruence.

Definition psim (d : device) (i : Z) (x y : app * option Z) : Prop :=
  snd x = snd y /\ exists m, sim d i m (fst x) (fst y) /\ pending (fst x) = None.
Lemma extract_sim d i m bs s1 s2 : sim d i m s1 s2 -> pending s1 = None -> psim d i (extractHDPath bs s1) (extractHDPath bs s2).
Proof.
  intros S P. pose proof (sim_idle _ _ _ _ _ S P) as P2. unfold extractHDPath. destruct (_ <? _); (split; [reflexivity|]); exists m.
  - split; assumption.
  - split; [|exact P]. destruct S as [Si Sp Se Sd Sb Sk Sf Ss]. constructor; cbn [fst set_path tx_initialized hdPath expert_mode pending bufs ctx]; auto; idle.
Qed.
Lemma sim_reset d i m s1 s2 : sim d i m s1 s2 -> pending s1 = None -> sim d i m (reset_bufs s1) (reset_bufs s2).
Proof.
  intros [Si Sp Se Sd Sb Sk Sf Ss] P. constructor; cbn; auto using bsim_reset; try idle.
Qed.
Lemma init_sim d i m bs s1 s2 : sim d i m s1 s2 -> pending s1 = None -> psim d i (chunk_init bs s1) (chunk_init bs s2).
Proof. intros S P. unfold chunk_init. apply (extract_sim d i m); [apply sim_reset; assumption | exact P]. Qed.
Lemma sim_set_init d i m s1 s2 b : sim d i m s1 s2 -> pending s1 = None -> sim d i m (set_init b s1) (set_init b s2).
Proof. intros [Si Sp Se Sd Sb Sk Sf Ss] P. constructor; cbn; auto; try idle. Qed.
Lemma sim_full0 d i m s1 s2 : sim d i m s1 s2 -> pending s1 = None -> sim d i m (set_full false s1) (set_full false s2).
Proof. intros [Si Sp Se Sd Sb Sk Sf Ss] P. constructor; cbn; auto. all: try (intros _; split; [reflexivity | discriminate]); try idle. Qed.

Lemma chunk_sim d i m bs s1 s2 : device_ok d -> sim d i m s1 s2 -> pending s1 = None ->
  exists m', m <= m' /\ snd (append_chunk d s1 bs) = snd (append_chunk d s2 bs) /\ sim d i m' (fst (append_chunk d s1 bs)) (fst (append_chunk d s2 bs)) /\
   pending (fst (append_chunk d s1 bs)) = None /\
   (snd (append_chunk d s1 bs) = false -> in_ram (bufs (fst (append_chunk d s1 bs))) = false).
Proof.
  intros D [Si Sp Se Sd Sb Sk Sf Ss] P. unfold append_chunk.
  destruct (append_sim d m (bufs s1) (bufs s2) (data_of bs) D Sb) as (m' & L & N & B).
  assert (Ir : snd (buf_append (ram_size d) (flash_size d) (bufs s1) (data_of bs)) <> zlen (data_of bs) ->
     in_ram (fst (buf_append (ram_size d) (flash_size d) (bufs s1) (data_of bs))) = false).
  { unfold buf_append, flash_append. destruct (in_ram (bufs s1)) eqn:I.
    - destruct (rpos (bufs s1) + _ <=? _); [cbn; congruence|].
      intros _. destruct (0 <? rpos (bufs s1)); destruct (_ <=? flash_size d); cbn; try reflexivity;
      destruct (_ <=? flash_size d); reflexivity.
    - destruct (_ <=? _); cbn; congruence. }
  destruct (buf_append (ram_size d) (flash_size d) (bufs s1) (data_of bs)) as [c1 n1].
  destruct (buf_append (ram_size d) (flash_size d) (bufs s2) (data_of bs)) as [c2 n2]. cbn [fst snd] in *. subst n2.
  exists m'. split; [exact L|]. split; [reflexivity|]. split; [|split; [exact P|intros X; apply Ir; lia]].
  constructor; cbn; auto.
  - intros I4. destruct (Sf I4) as [E1 E2]. split; [exact E1|]. intros F. destruct (E2 F) as [? ? ? ? ? ?]. constructor; auto. lia.
  - idle.
Qed.

Definition csim (d : device) (i : Z) (x y : chunk) : Prop :=
  match x, y with
  | More a, More b | LastChunk a, LastChunk b => exists m, sim d i m a b /\ pending a = None
  | Threw e a, Threw f b => e = f /\ exists m, sim d i m a b
  | _, _ => False
  end.
Lemma process_sim d i m bs s1 s2 : device_ok d -> sim d i m s1 s2 -> pending s1 = None ->
  csim d i (process_chunk d bs s1) (process_chunk d bs s2).
Proof.
  intros D S P. unfold process_chunk. destruct (negb _); [split; eauto|].
  destruct (P1_of bs =? 0).
  { destruct (init_sim d i m bs s1 s2 S P) as (E & m' & S' & P'). destruct (chunk_init bs s1) as [a x], (chunk_init bs s2) as [b y].
    cbn [fst snd] in *. subst y. destruct x; [split; eauto|]. exists m'. split; [apply sim_set_init; auto | exact P']. }
  destruct (_ || _).
  - rewrite <- (sm_init _ _ _ _ _ S). destruct (negb _); [split; eauto|].
    destruct (chunk_sim d i m bs s1 s2 D S P) as (m' & L & E & S' & P' & _).
    destruct (append_chunk d s1 bs) as [a x], (append_chunk d s2 bs) as [b y]. cbn [fst snd] in *. subst y.
    destruct x; [destruct (P1_of bs =? 1); exists m'; split; auto|]. split; [reflexivity|]. exists m'. apply sim_set_init; auto.
  - split; [reflexivity|]. exists m. apply sim_set_init; auto.
Qed.

Lemma addr_sim d i m bs s1 s2 : sim d i m s1 s2 -> pending s1 = None -> osim d i (handleGetAddr d bs s1) (handleGetAddr d bs s2).
Proof.
  intros S P. unfold handleGetAddr. destruct (extract_sim d i m bs s1 s2 S P) as (E & m' & S' & P').
  destruct (extractHDPath bs s1) as [a x], (extractHDPath bs s2) as [b y]. cbn [fst snd] in *. subst y.
  destruct x; [split; eauto|]. rewrite <- (sm_path _ _ _ _ _ S').
  assert (X : forall v q, q = None \/ q = Some RAddr -> sim d i m' (set_pending q (set_answer v a)) (set_pending q (set_answer v b))).
  { intros v q Q. destruct S' as [Si Sp Se Sd Sb Sk Sf Ss]. constructor; cbn; auto. intros r E. destruct Q as [-> | ->]; [discriminate|]. injection E as <-. reflexivity. }
  assert (Y : forall v, sim d i m' (set_answer v a) (set_answer v b)).
  { intros v. destruct S' as [Si Sp Se Sd Sb Sk Sf Ss]. constructor; cbn; auto; try idle. }
  destruct (fill_address d (hdPath a)); [|split; eauto|reflexivity].
  destruct (_ =? _); (split; [reflexivity|]); exists m'; auto.
Qed.

Lemma sign_handler_sim d m bs s1 s2 : device_ok d -> sim d 2 m s1 s2 -> pending s1 = None -> osim d 2 (handleSign d bs s1) (handleSign d bs s2).
Proof.
  intros D S P. unfold handleSign. pose proof (process_sim d 2 m bs s1 s2 D S P) as C.
  destruct (process_chunk d bs s1) as [a|a|e a], (process_chunk d bs s2) as [b|b|f b]; try contradiction; cbn [csim] in C.
  - destruct C as (m' & C & _). split; eauto.
  - destruct C as (m' & C & P'). cbn [expert_mode set_init bufs]. cbv zeta.
    destruct C as [Si Sp Se Sd Sb Sk Sf Ss]. pose proof (bsim_data _ _ _ _ Sb) as Eb. rewrite <- Eb, <- Se.
    pose proof (tx_data_len _ _ (bs_ok1 _ _ _ _ Sb) D) as Ld.
    destruct (tpe d (set_init false a)) as (A1 & A2 & A3 & A4 & A5 & A6 & A7). destruct (tpe d (set_init false b)) as (B1 & B2 & B3 & B4 & B5 & B6 & B7).
    cbn [set_init tx_initialized tx_bufferFull hdPath expert_mode pending bufs answer] in A1, A2, A3, A4, A5, A6, A7, B1, B2, B3, B4, B5, B6, B7.
    destruct (tx_parse (plat d) (expert_mode a) (tx_data (bufs a))) as [t|e|u] eqn:T; [| |reflexivity].
    + split; [reflexivity|]. exists m'. constructor; cbn [set_pending tx_initialized tx_bufferFull hdPath expert_mode pending bufs ctx obj_type obj_header]; try congruence; auto.
      * intros r E. injection E as <-. 
        destruct (parse_of_tx _ _ _ _ T ltac:(destruct D; lia)) as (k & rest & Ed & Nr & PP & Kt).
        assert (PP' := PP). rewrite Ed in PP, PP'. cbn [on_screen].
        unfold tx_parse_effect. cbn [bufs set_init expert_mode]. rewrite <- Eb, <- Se, Ed, PP.
        destruct t; subst k; cbn; (split; [reflexivity|]); split; intros; auto; lia.
    + split; [reflexivity|]. exists m'. constructor; try congruence; auto.
  - destruct C as (-> & m' & C). split; eauto.
Qed.

Lemma msg_handler_sim d m bs s1 s2 : device_ok d -> sim d 3 m s1 s2 -> pending s1 = None -> osim d 3 (handleSignMessage d bs s1) (handleSignMessage d bs s2).
Proof.
  intros D S P. unfold handleSignMessage. pose proof (process_sim d 3 m bs s1 s2 D S P) as C.
  destruct (process_chunk d bs s1) as [a|a|e a], (process_chunk d bs s2) as [b|b|f b]; try contradiction; cbn [csim] in C.
  - destruct C as (m' & C & _). split; eauto.
  - destruct C as (m' & C & P').
    destruct C as [Si Sp Se Sd Sb Sk Sf Ss]. pose proof (bsim_data _ _ _ _ Sb) as Eb. rewrite <- Eb.
    destruct Sk as [|[Ka Kb]]; [lia|].
    destruct (tpm a) as (A1 & A2 & A3 & A4 & A5 & A6 & A7). destruct (tpm b) as (B1 & B2 & B3 & B4 & B5 & B6 & B7).
    destruct (parser_parse_message (tx_data (bufs a))) as [t|e|u] eqn:T; [| |reflexivity].
    + split; [reflexivity|]. exists m'. constructor; cbn [set_pending tx_initialized tx_bufferFull hdPath expert_mode pending bufs ctx obj_type obj_header]; try congruence; auto; try lia.
      * right. rewrite !msg_content. auto.
      * intros r E. injection E as <-. cbn [on_screen ctx set_pending obj_type obj_header bufs]. rewrite !msg_content, A4, B4.
        pose proof (ctx_whole d a (ccontent (ctx a)) D (bs_ok1 _ _ _ _ Sb)) as Wa.
        pose proof (ctx_whole d b (ccontent (ctx b)) D (bs_ok2 _ _ _ _ Sb)) as Wb.
        unfold tx_parse_message_effect. rewrite <- Eb in *. rewrite T.
        destruct (tx_data (bufs a)) as [|k rest]; [discriminate|]. cbn [ctx obj_type obj_header set_deploy set_ctx]. rewrite Wa, Wb. auto.
    + split; [reflexivity|]. exists m'. constructor; try congruence; auto; try lia. right. rewrite !msg_content. auto.
  - destruct C as (-> & m' & C). split; eauto.
Qed.

(** what validation and display of a raw-WASM deploy read *)
Record wready (s1 s2 : app) : Prop := {
  wr_ctx : ctx s1 = ctx s2; wr_v1 : cobj_v1 (ctx s1) = false; wr_type : obj_type s1 = obj_type s2;
  wr_head : obj_header s1 = obj_header s2; wr_expert : expert_mode s1 = expert_mode s2;
  wr_data : ctx_data (bufs s1) (ctx s1) = ctx_data (bufs s2) (ctx s2) }.
Lemma wready_valid d s1 s2 : wready s1 s2 -> tx_validate_wasm d s1 = tx_validate_wasm d s2.
Proof. intros [C V T H E D]. unfold tx_validate_wasm, wasm_run, wasm_header. rewrite D, <- C, V, H, E. reflexivity. Qed.

Lemma wasm_empty d s h : tx_parse_wasm d s = Ret h -> tx_data (bufs s) <> [].
Proof. unfold tx_parse_wasm. intros H E. rewrite E in H. discriminate. Qed.
Lemma wparse_sim d m s1 s2 : sim d 4 m s1 s2 -> tx_parse_wasm d s1 = tx_parse_wasm d s2.
Proof.
  intros [Si Sp Se Sd Sb Sk Sf Ss]. destruct Sk as [|[Ka Kb]]; [lia|]. unfold tx_parse_wasm. rewrite Se, (bsim_data _ _ _ _ Sb), Ka, Kb. reflexivity.
Qed.
Lemma weffect_sim d m s1 s2 h : device_ok d -> sim d 4 m s1 s2 -> pending s1 = None -> tx_parse_wasm d s1 = Ret h ->
  wready (tx_parse_wasm_effect d s1) (tx_parse_wasm_effect d s2) /\
  (in_ram (bufs s1) = false ->
   let a := tx_parse_wasm_effect d s1 in let b := tx_parse_wasm_effect d s2 in
   parsed (ctx a) (ctx b) (obj_type a) (obj_type b) (obj_header a) (obj_header b) m).
Proof.
  intros D S P T. pose proof (wparse_sim _ _ _ _ S) as Ep. pose proof (wasm_empty _ _ _ T) as Ne.
  destruct S as [Si Sp Se Sd Sb Sk Sf Ss]. pose proof (bsim_data _ _ _ _ Sb) as Eb.
  destruct Sk as [|[Ka Kb]]; [lia|].
  pose proof (ctx_whole d s1 (ccontent (ctx s1)) D (bs_ok1 _ _ _ _ Sb)) as Wa.
  pose proof (ctx_whole d s2 (ccontent (ctx s2)) D (bs_ok2 _ _ _ _ Sb)) as Wb.
  pose proof (tx_data_len _ _ (bs_ok1 _ _ _ _ Sb) D) as Ld. pose proof (zlen_nonneg (tx_data (bufs s1))) as Ln.
  assert (Lf : in_ram (bufs s1) = false -> u16 (zlen (tx_data (bufs s1))) <= m).
  { intros I. rewrite u16_small by (destruct D; lia). destruct Sb as [[A1 A2 A3 A4 A5] _ _ _ _ _ M _].
    unfold tx_data. rewrite I. unfold zlen. rewrite firstn_length. lia. }
  assert (Lu : 0 <= u16 (zlen (tx_data (bufs s1)))) by (rewrite u16_small by (destruct D; lia); lia).
  assert (Ef : forall s, tx_data (bufs s) <> [] -> tx_parse_wasm d s = Ret h -> tx_parse_wasm_effect d s =
     set_deploy type_WasmDeploy h (set_ctx (here s 0 (u16 (zlen (tx_data (bufs s)))) false (ccontent (ctx s))) s)).
  { intros s N E. unfold tx_parse_wasm_effect. rewrite E. destruct (tx_data (bufs s)); [congruence|reflexivity]. }
  rewrite (Ef s1 Ne T), (Ef s2) by (rewrite <- ?Eb, <- ?Ep; auto). clear Ef. rewrite <- Eb in *.
  assert (Ec : here s1 0 (u16 (zlen (tx_data (bufs s1)))) false (ccontent (ctx s1)) = here s2 0 (u16 (zlen (tx_data (bufs s1)))) false (ccontent (ctx s2))).
  { unfold here. rewrite (bs_in _ _ _ _ Sb), Ka, Kb. reflexivity. }
  split.
  - constructor; cbn [ctx set_deploy set_ctx obj_type obj_header expert_mode bufs]; auto. rewrite Wa, Wb. reflexivity.
  - intros I. constructor; cbn [ctx set_deploy set_ctx obj_type obj_header]; auto; unfold here; cbn [clen cbuf]; rewrite ?I; auto.
Qed.
Lemma weffect_keep d m s1 s2 : sim d 4 m s1 s2 -> pending s1 = None -> tx_bufferFull s1 = false ->
  sim d 4 m (tx_parse_wasm_effect d s1) (tx_parse_wasm_effect d s2) /\ pending (tx_parse_wasm_effect d s1) = None.
Proof.
  intros [Si Sp Se Sd Sb Sk Sf Ss] P F.
  destruct (tpw d s1) as (A1 & A2 & A3 & A4 & A5 & A6 & A7). destruct (tpw d s2) as (B1 & B2 & B3 & B4 & B5 & B6 & B7).
  split; [|congruence]. constructor; try congruence.
  - right. rewrite !wasm_content. destruct Sk as [|Sk]; [lia | exact Sk].
  - intros _. destruct (Sf eq_refl) as [E _]. split; congruence.
Qed.

Lemma wappend_sim d m bs s1 s2 : device_ok d -> sim d 4 m s1 s2 -> pending s1 = None ->
  match wasm_append d bs s1, wasm_append d bs s2 with
  | Ret (inl a), Ret (inl b) | Ret (inr a), Ret (inr b) => exists m', sim d 4 m' a b /\ pending a = None
  | Fail e, Fail f => e = f
  | Undef u, Undef v => u = v
  | _, _ => False
  end.
Proof.
  intros D S P. unfold wasm_append. destruct (chunk_sim d 4 m bs s1 s2 D S P) as (m' & L & E & S' & P' & Ir).
  destruct (append_chunk d s1 bs) as [a x], (append_chunk d s2 bs) as [b y]. cbn [fst snd] in *. subst y.
  destruct (sm_full _ _ _ _ _ S' eq_refl) as [Ef _]. rewrite <- Ef.
  destruct (negb (tx_bufferFull a) && negb x) eqn:C; [|exists m'; auto].
  assert (Fa : tx_bufferFull a = false) by (destruct (tx_bufferFull a); [discriminate|reflexivity]).
  assert (x = false) as -> by (destruct x; [rewrite andb_false_r in C; discriminate|reflexivity]).
  rewrite <- (wparse_sim _ _ _ _ S'). destruct (weffect_keep d m' a b S' P' Fa) as [K Pk].
  destruct (tx_parse_wasm d a) as [h|e|u] eqn:T; [| |reflexivity].
  - exists m'. split; [|exact Pk]. destruct (weffect_sim d m' a b h D S' P' T) as [_ Pa]. specialize (Pa (Ir eq_refl)). cbv zeta in Pa.
    destruct K as [Ki Kp Ke Kd Kb Kk Kf Ks]. constructor; cbn [set_full tx_initialized tx_bufferFull hdPath expert_mode pending bufs ctx obj_type obj_header]; auto; try idle.
  - exists m'. split; [apply sim_set_init; auto | exact Pk].
Qed.

Lemma wasm_handler_sim d m bs s1 s2 : device_ok d -> sim d 4 m s1 s2 -> pending s1 = None -> osim d 4 (handleSignWasm d bs s1) (handleSignWasm d bs s2).
Proof.
  intros D S P. unfold handleSignWasm.
  assert (PC : match process_wasm_chunk d bs s1, process_wasm_chunk d bs s2 with
     | Ret x, Ret y => csim d 4 x y | Fail e, Fail f => e = f | Undef u, Undef v => u = v | _, _ => False end).
  { unfold process_wasm_chunk. destruct (negb _); [split; eauto|].
    destruct (P1_of bs =? 0).
    { destruct (init_sim d 4 m bs s1 s2 S P) as (E & m' & S' & P'). destruct (chunk_init bs s1) as [a x], (chunk_init bs s2) as [b y].
      cbn [fst snd] in *. subst y. destruct x; [split; eauto|]. exists m'. split; [|exact P']. apply sim_full0; [|exact P']. apply sim_set_init; auto. }
    destruct (_ || _).
    - rewrite <- (sm_init _ _ _ _ _ S). destruct (negb _); [split; eauto|].
      pose proof (wappend_sim d m bs s1 s2 D S P) as W.
      destruct (wasm_append d bs s1) as [[a|a]| |], (wasm_append d bs s2) as [[b|b]| |]; try contradiction; auto.
      + destruct (P1_of bs =? 1); exact W.
      + destruct W as (m' & W & _). split; eauto.
    - split; [reflexivity|]. exists m. apply sim_set_init; auto. }
  destruct (process_wasm_chunk d bs s1) as [[a|a|e a]| |], (process_wasm_chunk d bs s2) as [[b|b|f b]| |]; try contradiction; auto; cbn [csim] in PC.
  - destruct PC as (m' & C & _). split; eauto.
  - destruct PC as (m' & C0 & P'). cbv zeta. pose proof (sim_set_init d 4 m' a b false C0 P') as C. 
    set (a1 := set_init false a) in *. set (b1 := set_init false b) in *. assert (Pa : pending a1 = None) by exact P'. clearbody a1 b1.
    destruct (sm_full _ _ _ _ _ C eq_refl) as [Ef Ep]. rewrite <- Ef.
    assert (Fin : forall a2 b2, sim d 4 m' a2 b2 -> pending a2 = None -> wready a2 b2 ->
       osim d 4 (match tx_validate_wasm d a2 with Ret _ => Ret (set_pending (Some RWasm) a2, NoReply) | Fail _ => throw EXECUTION_ERROR a2 | Undef u => Undef u end)
                (match tx_validate_wasm d b2 with Ret _ => Ret (set_pending (Some RWasm) b2, NoReply) | Fail _ => throw EXECUTION_ERROR b2 | Undef u => Undef u end)).
    { intros a2 b2 C2 P2 W. rewrite <- (wready_valid d a2 b2 W). destruct (tx_validate_wasm d a2); [| |reflexivity].
      - split; [reflexivity|]. exists m'. destruct C2 as [Ki Kp Ke Kd Kb Kk Kf Ks], W as [W1 W2 W3 W4 W5 W6].
        constructor; cbn [set_pending tx_initialized tx_bufferFull hdPath expert_mode pending bufs ctx obj_type obj_header]; auto.
        intros r X. injection X as <-. destruct Kk as [|[Ka Kc]]; [lia|].
        cbn [on_screen set_pending ctx obj_type obj_header bufs]. auto 10.
      - split; [reflexivity|]. exists m'. exact C2. }
    destruct (tx_bufferFull a1) eqn:F.
    + apply Fin; auto. destruct (Ep eq_refl) as [Q1 Q2 Q3 Q4 Q5 Q6]. constructor; auto; [apply C|].
      unfold ctx_data. rewrite <- Q1, Q6. pose proof (sm_bufs _ _ _ _ _ C) as [[A1 A2 A3 A4 A5] [B1 B2 B3 B4 B5] _ _ _ _ M Fl].
      unfold slice. rewrite A2, B2. destruct (_ && _); [|reflexivity]. rewrite !skipn_O. f_equal.
      apply (firstn_le _ (Z.to_nat m')); [lia | exact Fl].
    + rewrite <- (wparse_sim _ _ _ _ C). destruct (weffect_keep d m' a1 b1 C Pa F) as [K Pk].
      destruct (tx_parse_wasm d a1) as [h|e|u] eqn:T; [| |reflexivity].
      * apply Fin; auto. exact (proj1 (weffect_sim d m' a1 b1 h D C Pa T)).
      * split; [reflexivity|]. exists m'. exact K.
  - destruct PC as (-> & m' & C). split; eauto.
Qed.

(** * Steps and runs *)
Lemma step_sim d i m s1 s2 e : device_ok d -> i = 2 \/ i = 3 \/ i = 4 -> sim d i m s1 s2 -> only i [e] ->
  osim d i (step d s1 e) (step d s2 e).
Proof.
  intros D I S O. pose proof (sim_screen _ _ _ _ _ S) as Sc. unfold step. rewrite <- (sm_pending _ _ _ _ _ S).
  assert (Q : sim d i m (set_pending None s1) (set_pending None s2)).
  { destruct S as [Si Sp Se Sd Sb Sk Sf Ss]. constructor; cbn [set_pending tx_initialized tx_bufferFull hdPath expert_mode pending bufs ctx obj_type obj_header]; auto. discriminate. }
  destruct (pending s1) as [r|] eqn:P.
  - destruct e as [bs pin|ok| |x]; try (split; eauto; fail).
    assert (Sg : r <> RAddr -> app_sign d s1 = app_sign d s2) by (intros; eapply sign_sim; eauto).
    assert (An : r = RAddr -> answer s1 = answer s2) by (intros ->; exact (sm_screen _ _ _ _ _ S _ P)).
    destruct r; try (destruct ok; [|split; eauto]; rewrite <- Sg by discriminate; destruct (app_sign d s1); [split; eauto|reflexivity|reflexivity]).
    split; [|eauto]. rewrite An; reflexivity.
  - destruct e as [bs pin|ok| |x]; try (split; eauto; fail).
    + unfold only in O. inversion O as [|? ? Ob _]; subst. unfold handleApdu. unfold SA.signing, SA.command, SA.cla in Ob.
      change (S.len bs) with (zlen bs) in Ob. change 0x11 with 17.
      destruct (nth 0 bs 0 =? 17); [|split; eauto]. cbn [negb]. destruct (zlen bs <? 5) eqn:L; [split; eauto|].
      replace (5 <=? zlen bs) with true in Ob by lia. cbn [andb] in Ob. cbv zeta. unfold SA.ins in Ob.
      destruct (_ =? INS_GET_VERSION); [split; eauto|]. destruct (_ || _ || _ || _) eqn:Any; [|split; eauto]. destruct (negb pin); [split; eauto|].
      unfold INS_GET_ADDR, INS_SIGN, INS_SIGN_MSG, INS_SIGN_WASM in *.
      destruct (nth 1 bs 0 =? 1); [eapply addr_sim; eauto|].
      destruct (nth 1 bs 0 =? 2) eqn:I2; [assert (i = 2) as -> by (specialize (Ob eq_refl); lia); eapply sign_handler_sim; eauto|].
      destruct (nth 1 bs 0 =? 3) eqn:I3; [assert (i = 3) as -> by (specialize (Ob eq_refl); lia); eapply msg_handler_sim; eauto|].
      assert (i = 4) as -> by (cbn [orb] in Ob; destruct (nth 1 bs 0 =? 4) eqn:I4; [specialize (Ob eq_refl); lia | lia]).
      eapply wasm_handler_sim; eauto.
    + split; [reflexivity|]. exists m. destruct S as [Si Sp Se Sd Sb Sk Sf Ss]. constructor; cbn [set_expert tx_initialized tx_bufferFull hdPath expert_mode pending bufs ctx obj_type obj_header]; auto; try idle.
Qed.

Definition same_run (d : device) (o1 o2 : outcome (app * list entry)) : Prop :=
  match o1, o2 with
  | Ret (s1, t1), Ret (s2, t2) => Forall2 (same_entry d) t1 t2 /\ same_screen d s1 s2
  | Fail e1, Fail e2 => e1 = e2
  | Undef u1, Undef u2 => u1 = u2
  | _, _ => False
  end.
Lemma run_sim d i : device_ok d -> i = 2 \/ i = 3 \/ i = 4 -> forall es m s1 s2, sim d i m s1 s2 -> only i es ->
  same_run d (run d s1 es) (run d s2 es).
Proof.
  intros D I. induction es as [|e es IH]; intros m s1 s2 S O; cbn [run].
  - split; [constructor|]. eapply sim_screen; eauto.
  - inversion O as [|? ? O1 O2]; subst. pose proof (step_sim d i m s1 s2 e D I S ltac:(constructor; [exact O1|constructor])) as X.
    destruct (step d s1 e) as [[a r]| |], (step d s2 e) as [[b r']| |]; try contradiction; auto. cbn [osim] in X. destruct X as (<- & m' & X).
    specialize (IH m' a b X O2). destruct (run d a es) as [[a' ta]| |], (run d b es) as [[b' tb]| |]; try contradiction; auto.
    destruct IH as [F Sc]. split; [|exact Sc]. constructor; [|exact F]. split; [reflexivity|]. split; [reflexivity|]. eapply sim_screen; eauto.
Qed.

(** * Sessions *)
Lemma handle_cmd d i k c s : i = 2 \/ i = 3 \/ i = 4 -> pending s = None ->
  step d s (Apdu (SS.cmd i k c) true) =
  (if i =? 2 then handleSign d (SS.cmd i k c) s else if i =? 3 then handleSignMessage d (SS.cmd i k c) s else handleSignWasm d (SS.cmd i k c) s).
Proof.
  intros I P. unfold step. rewrite P. unfold handleApdu.
  assert (L : (zlen (SS.cmd i k c) <? 5) = false) by (unfold SS.cmd, zlen; rewrite app_length; cbn [List.length]; lia).
  rewrite L. destruct I as [-> |[-> | ->]]; reflexivity.
Qed.
Lemma cmd_parts i k c : P1_of (SS.cmd i k c) = k /\ P2_of (SS.cmd i k c) = 0 /\ data_of (SS.cmd i k c) = c.
Proof. repeat split. Qed.
Lemma path_casper p : SA.casper_path p -> path_ok p = true.
Proof. unfold path_ok, SA.casper_path, HDPATH_0, HDPATH_1. lia. Qed.

Definition opened_by (i : Z) (p : list Z) (s : app) : app :=
  let s1 := set_init true (set_path (SS.words5 p) (reset_bufs s)) in if i =? 4 then set_full false s1 else s1.
Lemma init_step d i p s : i = 2 \/ i = 3 \/ i = 4 -> pending s = None -> 20 <= zlen p -> SA.casper_path (SS.words5 p) ->
  step d s (Apdu (SS.cmd i 0 p) true) = Ret (opened_by i p s, Status [] SA.ok).
Proof.
  intros I P L C. rewrite handle_cmd by auto. unfold handleSign, handleSignMessage, handleSignWasm, process_chunk, process_wasm_chunk.
  destruct (cmd_parts i 0 p) as (-> & -> & _). cbn [Z.eqb negb].
  assert (E : chunk_init (SS.cmd i 0 p) s = (set_path (SS.words5 p) (reset_bufs s), None)).
  { unfold chunk_init. fold (reset_bufs s). destruct (extractHDPath (SS.cmd i 0 p) (reset_bufs s)) as [s' r] eqn:X. apply extract_inv in X.
    change (data_of (SS.cmd i 0 p)) with p in X. change (SA.path (SS.cmd i 0 p)) with (SS.words5 p) in X.
    destruct X as [(? & _)|(_ & -> & ->)]; [lia|]. rewrite (path_casper _ C). reflexivity. }
  rewrite E. unfold opened_by. destruct I as [-> |[-> | ->]]; reflexivity.
Qed.

Lemma only_cons i k c es : i = 2 \/ i = 3 \/ i = 4 -> only i es -> only i (Apdu (SS.cmd i k c) true :: es).
Proof. intros I O. constructor; [intros _; reflexivity | exact O]. Qed.

Lemma sessions_alike d s1 tr1 s2 tr2 i p es : device_ok d -> reach d s1 tr1 -> reach d s2 tr2 ->
  pending s1 = None -> pending s2 = None -> expert_mode s1 = expert_mode s2 ->
  i = 2 \/ (i = 3 \/ i = 4) /\ deploys_only tr1 /\ deploys_only tr2 ->
  20 <= zlen p -> SA.casper_path (SS.words5 p) -> only i es ->
  same_run d (run d s1 (Apdu (SS.cmd i 0 p) true :: es)) (run d s2 (Apdu (SS.cmd i 0 p) true :: es)).
Proof.
  intros D R1 R2 P1 P2 X K L C O. assert (I : i = 2 \/ i = 3 \/ i = 4) by lia. cbn [run].
  rewrite !init_step by auto. 
  assert (S : sim d i 0 (opened_by i p s1) (opened_by i p s2)).
  { pose proof (reset_sim d (bufs s1) (bufs s2) D (reach_buf _ _ _ D R1) (reach_buf _ _ _ D R2)) as B.
    assert (Kc : i = 2 \/ (ccontent (ctx s1) = 0 /\ ccontent (ctx s2) = 0)).
    { destruct K as [K|(_ & A & Bq)]; [left; exact K|right]. split; eapply content_zero; eauto. }
    unfold opened_by. destruct (i =? 4) eqn:I4; cbv zeta; constructor;
    cbn [set_full set_init set_path reset_bufs set_bufs tx_initialized tx_bufferFull hdPath expert_mode pending bufs ctx obj_type obj_header]; auto;
    try congruence; try lia. }
  pose proof (run_sim d i D I es 0 _ _ S O) as Q.
  destruct (run d (opened_by i p s1) es) as [[a ta]| |], (run d (opened_by i p s2) es) as [[b tb]| |]; try contradiction; auto.
  destruct Q as [F Sc]. split; [|exact Sc]. constructor; [|exact F]. split; [reflexivity|]. split; [reflexivity|]. split; [cbn; congruence|].
  cbn [fst snd]. intros r E. congruence.
Qed.

(** ** The chunks of a transaction or message *)
Lemma chunks_sent d i cs : device_ok d -> i = 2 \/ i = 3 -> forall s, buf_ok d (bufs s) -> pending s = None -> tx_initialized s = true ->
  zlen (tx_data (bufs s)) + zlen (List.concat cs) <= flash_size d ->
  exists b tr, run d s (map (fun c => Apdu (SS.cmd i 1 c) true) cs) = Ret (set_bufs b s, tr) /\ buf_ok d b /\
    tx_data b = tx_data (bufs s) ++ List.concat cs /\ Forall (fun x => snd x = Status [] SA.ok) tr.
Proof.
  intros D I. induction cs as [|c cs IH]; intros s B P T L; cbn [map run List.concat] in *.
  - exists (bufs s), []. split; [destruct s; reflexivity|]. rewrite app_nil_r. auto.
  - rewrite handle_cmd by (auto; lia).
    destruct (buf_append (ram_size d) (flash_size d) (bufs s) c) as [b n] eqn:A.
    pose proof (zlen_nonneg (List.concat cs)). rewrite zlen_app in L.
    assert (n = zlen c) as ->.
    { destruct (Z.eq_dec n (zlen c)) as [|N]; [assumption|]. pose proof (append_full _ _ _ _ _ D B A N). lia. }
    destruct (append_ok _ _ _ _ _ D B A) as (B' & Q).
    assert (E : tx_data b = tx_data (bufs s) ++ c) by (destruct Q as [[_ Q]|(Z0 & Zp & _)]; [exact Q | lia]).
    assert (St : (if i =? 2 then handleSign d (SS.cmd i 1 c) s else if i =? 3 then handleSignMessage d (SS.cmd i 1 c) s else handleSignWasm d (SS.cmd i 1 c) s)
      = Ret (set_bufs b s, Status [] SA.ok)).
    { unfold handleSign, handleSignMessage, process_chunk, append_chunk. destruct (cmd_parts i 1 c) as (-> & -> & ->).
      rewrite T, A, (Z.eqb_refl (zlen c)). destruct I as [-> | ->]; reflexivity. }
    rewrite St. destruct (IH (set_bufs b s) B' P T) as (b2 & tr & R & B2 & E2 & F).
    { cbn [bufs set_bufs]. rewrite E, zlen_app. lia. }
    rewrite R. exists b2, ((Apdu (SS.cmd i 1 c) true, s, Status [] SA.ok) :: tr). split; [destruct s; reflexivity|]. split; [exact B2|].
    split; [rewrite E2; cbn [bufs set_bufs]; rewrite E, app_assoc; reflexivity|]. constructor; [reflexivity | exact F].
Qed.

Definition sends (i : Z) (p : list Z) (cs : list (list Z)) (c : list Z) : list event :=
  map (fun b => Apdu b true) (SS.session i p cs c).

Lemma tx_session d s p cs c t : device_ok d -> buf_ok d (bufs s) -> pending s = None -> 20 <= zlen p -> SA.casper_path (SS.words5 p) ->
  zlen (List.concat cs ++ c) <= flash_size d -> tx_parse (plat d) (expert_mode s) (List.concat cs ++ c) = Ret t ->
  exists s' st s1 tr, run d s (sends 2 p cs c) = Ret (s', tr ++ [(Apdu (SS.cmd 2 2 c) true, st, NoReply)]) /\
    Forall (fun x => snd x = Status [] SA.ok) tr /\ s' = set_pending (Some (RTx t)) (tx_parse_effect d s1) /\ tx_data (bufs s1) = List.concat cs ++ c /\
    hdPath s1 = SS.words5 p /\ expert_mode s1 = expert_mode s.
Proof.
  intros D B P Lp C L T. unfold sends, SS.session. cbn [map]. rewrite map_app, map_map. cbn [map].
  change (?x :: ?y ++ ?z) with ((x :: y) ++ z).
  set (s0 := opened_by 2 p s).
  assert (B0 : buf_ok d (bufs s0)).
  { destruct B as [? ? ? ? ?], D as [_ ? ? ?]. constructor; cbn; auto; lia. }
  rewrite zlen_app in L. pose proof (zlen_nonneg c).
  destruct (chunks_sent d 2 cs D ltac:(auto) s0 B0 P eq_refl) as (b & tr & R & Bb & Eb & F).
  { change (tx_data (bufs s0)) with (@nil Z). rewrite zlen_nil. lia. }
  change (tx_data (bufs s0)) with (@nil Z) in Eb. cbn [Datatypes.app] in Eb.
  assert (Ra : run d s (Apdu (SS.cmd 2 0 p) true :: map (fun x => Apdu (SS.cmd 2 1 x) true) cs) = Ret (set_bufs b s0, (Apdu (SS.cmd 2 0 p) true, s, Status [] SA.ok) :: tr)).
  { cbn [run]. rewrite init_step by auto. fold s0. rewrite R. reflexivity. }
  destruct (buf_append (ram_size d) (flash_size d) b c) as [b2 n] eqn:A.
  assert (n = zlen c) as ->.
  { destruct (Z.eq_dec n (zlen c)) as [|N]; [assumption|]. pose proof (append_full _ _ _ _ _ D Bb A N) as X. rewrite Eb in X. lia. }
  destruct (append_ok _ _ _ _ _ D Bb A) as (B' & Q).
  assert (E : tx_data b2 = List.concat cs ++ c) by (rewrite <- Eb; destruct Q as [[_ Q]|(Z0 & Zp & _)]; [exact Q | lia]).
  set (s1 := set_init false (set_bufs b2 s0)).
  assert (St : step d (set_bufs b s0) (Apdu (SS.cmd 2 2 c) true) = Ret (set_pending (Some (RTx t)) (tx_parse_effect d s1), NoReply)).
  { rewrite handle_cmd by auto. cbn [Z.eqb]. unfold handleSign, process_chunk, append_chunk. destruct (cmd_parts 2 2 c) as (-> & -> & ->).
    cbn [bufs set_bufs tx_initialized s0 opened_by Z.eqb set_init negb orb]. rewrite A, (Z.eqb_refl (zlen c)). cbv zeta. cbn [Z.eqb negb].
    change (tx_data (bufs s1)) with (tx_data b2). unfold s1 at 1. cbn [expert_mode set_init set_bufs s0 opened_by bufs].
    cbn. rewrite E, T. reflexivity. }
  eexists _, _, s1, _. split.
  - apply run_app. eexists _, _, _. split; [exact Ra|]. split; [|reflexivity]. cbn [run]. rewrite St. reflexivity.
  - split; [constructor; [reflexivity|exact F]|]. split; [reflexivity|]. split; [exact E|]. split; reflexivity.
Qed.
