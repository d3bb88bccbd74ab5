(** Facts about executions of the application. *)
From Verif Require Import Base Zxlib Crypto Utils RuntimeArg Deploy DeployUI TxV1 TxV1UI Parser BaseFacts Spec Exec ArgsFacts ReaderFacts SpecText TextFacts Demo SpecApp App.

(** * Executions *)
Definition entry := (event * app * reply)%type.

Lemma run_app d a : forall s b s2 tr,
  run d s (a ++ b) = Ret (s2, tr) <->
  exists s1 t1 t2, run d s a = Ret (s1, t1) /\ run d s1 b = Ret (s2, t2) /\ tr = t1 ++ t2.
Proof.
  induction a as [|e a IH]; intros s b s2 tr; cbn [Datatypes.app run].
  - split.
    + intros H. exists s, [], tr. auto.
    + intros (s1 & t1 & t2 & H1 & H2 & ->). injection H1 as <- <-. exact H2.
  - destruct (step d s e) as [[s' rp]| |] eqn:E.
    + split.
      * intros H. destruct (run d s' (a ++ b)) as [[s'' t]| |] eqn:R; try discriminate. injection H as <- <-.
        apply IH in R. destruct R as (s1 & t1 & t2 & R1 & R2 & ->).
        exists s1, ((e, s, rp) :: t1), t2. rewrite R1. split; [reflexivity|]. split; [exact R2 | reflexivity].
      * intros (s1 & t1 & t2 & H1 & H2 & ->).
        destruct (run d s' a) as [[s'' t]| |] eqn:R; try discriminate. injection H1 as <- <-.
        assert (X : run d s' (a ++ b) = Ret (s2, t ++ t2)) by (apply IH; exists s'', t, t2; auto). rewrite X. reflexivity.
    + split; [discriminate|]. intros (s1 & t1 & t2 & H1 & _). discriminate.
    + split; [discriminate|]. intros (s1 & t1 & t2 & H1 & _). discriminate.
Qed.

Lemma run_events d : forall es s s2 tr, run d s es = Ret (s2, tr) -> es = map (fun n : entry => fst (fst n)) tr.
Proof.
  induction es as [|e es IH]; intros s s2 tr H; cbn [run] in H.
  - injection H as <- <-. reflexivity.
  - destruct (step d s e) as [[s' rp]| |]; try discriminate.
    destruct (run d s' es) as [[s'' t]| |] eqn:R; try discriminate. injection H as <- <-.
    cbn [map fst]. f_equal. eauto.
Qed.

Definition event_ok (e : event) : Prop := match e with Apdu bs _ => bytes bs | _ => True end.

(** [reach d s tr]: state [s] is reached from power-on with the history [tr]. *)
Definition reach (d : device) (s : app) (tr : list entry) : Prop :=
  exists es, Forall event_ok es /\ run d (boot d) es = Ret (s, tr).

Lemma reach_boot d : reach d (boot d) [].
Proof. exists []. split; [constructor | reflexivity]. Qed.
Lemma reach_step d s tr e s' rp : reach d s tr -> event_ok e -> step d s e = Ret (s', rp) -> reach d s' (tr ++ [(e, s, rp)]).
Proof.
  intros (es & F & R) K E. exists (es ++ [e]). split.
  - apply Forall_app. auto.
  - apply run_app. exists s, tr, [(e, s, rp)]. split; [exact R|]. cbn [run]. rewrite E. auto.
Qed.
Lemma reach_ind d (Q : app -> list entry -> Prop) :
  Q (boot d) [] ->
  (forall s tr e s' rp, reach d s tr -> Q s tr -> event_ok e -> step d s e = Ret (s', rp) -> Q s' (tr ++ [(e, s, rp)])) ->
  forall s tr, reach d s tr -> Q s tr.
Proof.
  intros B S s tr (es & F & R). revert s tr F R.
  induction es as [|e es IH] using rev_ind; intros s tr F R.
  - injection R as <- <-. exact B.
  - apply run_app in R. destruct R as (s1 & t1 & t2 & R1 & R2 & ->).
    apply Forall_app in F. destruct F as [F1 F2]. inversion F2; subst.
    cbn [run] in R2. destruct (step d s1 e) as [[s' rp]| |] eqn:E; try discriminate. injection R2 as <- <-.
    apply (S s1 t1 e s' rp); auto. exists es. auto.
Qed.
(** a point in the history *)
Lemma reach_at d s tr1 e st rp tr2 : reach d s (tr1 ++ (e, st, rp) :: tr2) ->
  reach d st tr1 /\ event_ok e /\ exists st', step d st e = Ret (st', rp) /\ reach d st' (tr1 ++ [(e, st, rp)]).
Proof.
  intros (es & F & R). pose proof (run_events _ _ _ _ _ R) as E. rewrite map_app in E. cbn [map fst] in E. subst es.
  apply run_app in R. destruct R as (s1 & t1 & t2 & R1 & R2 & E).
  pose proof (run_events _ _ _ _ _ R1) as E1.
  assert (L : List.length tr1 = List.length t1).
  { apply (f_equal (@List.length event)) in E1. rewrite !map_length in E1. exact E1. }
  assert (X : tr1 = t1 /\ (e, st, rp) :: tr2 = t2).
  { clear -E L. revert t1 E L. induction tr1 as [|x l IH]; intros [|y t1] E L; try discriminate; cbn in *; [auto|].
    injection E as -> E. destruct (IH t1 E ltac:(lia)) as [-> ->]. auto. }
  destruct X as [<- <-]. cbn [run] in R2.
  destruct (step d s1 e) as [[s' rp']| |] eqn:St; try discriminate.
  destruct (run d s' _) as [[s'' t]| |] eqn:R; try discriminate. injection R2 as <- <- <- <-.
  apply Forall_app in F. destruct F as [F1 F2]. inversion F2; subst.
  assert (Rc : reach d s1 tr1) by (eexists; eauto).
  split; [exact Rc|]. split; [assumption|]. exists s'. split; [exact St|]. eapply reach_step; eauto.
Qed.
Lemma reach_next d s tr1 e1 st1 rp1 e2 st2 rp2 tr2 :
  reach d s (tr1 ++ (e1, st1, rp1) :: (e2, st2, rp2) :: tr2) -> step d st1 e1 = Ret (st2, rp1).
Proof.
  intros R. destruct (reach_at _ _ _ _ _ _ _ R) as (R1 & K1 & st' & E1 & _).
  replace (tr1 ++ (e1, st1, rp1) :: (e2, st2, rp2) :: tr2) with ((tr1 ++ [(e1, st1, rp1)]) ++ (e2, st2, rp2) :: tr2) in R
    by (rewrite <- app_assoc; reflexivity).
  destruct R as (es & F & R). pose proof (run_events _ _ _ _ _ R) as E. rewrite map_app in E. cbn [map fst] in E. subst es.
  destruct R1 as (es1 & F1 & R1). pose proof (run_events _ _ _ _ _ R1) as E. subst es1.
  rewrite map_app, <- app_assoc in R. apply run_app in R. destruct R as (s1 & t1 & t2 & Ra & Rb & E).
  assert (X : @Ret (app * list entry) (s1, t1) = Ret (st1, tr1)) by (etransitivity; [symmetry; exact Ra | exact R1]). injection X as -> ->. rewrite <- app_assoc in E. apply app_inv_head in E. subst t2.
  cbn [map fst Datatypes.app run] in Rb. rewrite E1 in Rb.
  destruct (step d st' e2) as [[s' rp']| |] eqn:St; try discriminate.
  destruct (run d s' _) as [[s'' t]| |] eqn:R; try discriminate. injection Rb as _ <- _ _. exact E1.
Qed.

(** * Buffers *)
Record device_ok (d : device) : Prop := {
  dev_hash : hash32 (p_hash (plat d));
  dev_ram : 0 <= ram_size d; dev_le : ram_size d <= flash_size d; dev_max : flash_size d < 65536 }.

Record buf_ok (d : device) (b : buffers) : Prop := {
  bo_ram : zlen (ram b) = ram_size d; bo_flash : zlen (flash b) = flash_size d;
  bo_rpos : 0 <= rpos b <= ram_size d; bo_fpos : 0 <= fpos b <= flash_size d;
  bo_in : in_ram b = true -> fpos b = 0 }.

Lemma overwrite_len a pos bs : 0 <= pos -> pos + zlen bs <= zlen a -> zlen (overwrite a pos bs) = zlen a.
Proof.
  intros P L. unfold overwrite. rewrite !zlen_app. unfold zlen in *. rewrite firstn_length, skipn_length. lia.
Qed.
Lemma overwrite_prefix a pos bs : 0 <= pos -> pos + zlen bs <= zlen a ->
  firstn (Z.to_nat (pos + zlen bs)) (overwrite a pos bs) = firstn (Z.to_nat pos) a ++ bs.
Proof.
  intros P L. unfold overwrite. rewrite app_assoc. unfold zlen in *.
  rewrite firstn_app. replace (Z.to_nat (pos + Z.of_nat (List.length bs)) - List.length (firstn (Z.to_nat pos) a ++ bs))%nat with 0%nat.
  - rewrite firstn_O, app_nil_r. apply firstn_all2. rewrite app_length, firstn_length. lia.
  - rewrite app_length, firstn_length. lia.
Qed.

Lemma flash_append_ok d b bs b' n :
  buf_ok d b -> in_ram b = false -> flash_append (flash_size d) b bs = (b', n) ->
  buf_ok d b' /\ in_ram b' = false /\
  ((n = zlen bs /\ tx_data b' = tx_data b ++ bs) \/ (n = 0 /\ 0 < zlen bs /\ tx_data b' = tx_data b)).
Proof.
  intros [O1 O2 O3 O4 O5] I H. pose proof (zlen_nonneg bs). unfold flash_append in H.
  destruct (fpos b + zlen bs <=? flash_size d) eqn:E; injection H as <- <-.
  - split; [constructor; cbn [ram flash in_ram rpos fpos]; try lia; [rewrite overwrite_len; lia | congruence]|].
    split; [exact I|]. left. split; [reflexivity|]. unfold tx_data. cbn [ram flash in_ram rpos fpos]. rewrite I.
    apply overwrite_prefix; lia.
  - split; [constructor; auto|]. split; [exact I|]. right. split; [reflexivity|]. split; [lia | reflexivity].
Qed.

Lemma append_ok d b bs b' n :
  device_ok d -> buf_ok d b -> buf_append (ram_size d) (flash_size d) b bs = (b', n) ->
  buf_ok d b' /\
  ((n = zlen bs /\ tx_data b' = tx_data b ++ bs) \/ (n = 0 /\ 0 < zlen bs /\ tx_data b' = tx_data b)).
Proof.
  intros D O H. pose proof O as [O1 O2 O3 O4 O5]. pose proof (zlen_nonneg bs). destruct D as [_ D1 D2 _].
  unfold buf_append in H. destruct (in_ram b) eqn:I.
  - destruct (rpos b + zlen bs <=? ram_size d) eqn:E.
    + injection H as <- <-. split.
      * constructor; cbn [ram flash in_ram rpos fpos]; try lia; rewrite overwrite_len; lia.
      * left. split; [reflexivity|]. unfold tx_data. cbn [ram flash in_ram rpos fpos]. rewrite I.
        apply overwrite_prefix; lia.
    + set (b1 := mkBuf (ram b) (flash b) false (rpos b) (fpos b)) in *.
      set (b2 := if 0 <? rpos b then _ else b1) in *.
      assert (B1 : buf_ok d b1) by (constructor; cbn; auto; discriminate).
      assert (B2 : buf_ok d b2 /\ in_ram b2 = false /\ tx_data b2 = tx_data b).
      { pose proof (O5 eq_refl) as F0. unfold b2. destruct (0 <? rpos b) eqn:R.
        - destruct (flash_append (flash_size d) b1 (firstn (Z.to_nat (rpos b)) (ram b))) as [b2' m] eqn:FA.
          assert (Zr : zlen (firstn (Z.to_nat (rpos b)) (ram b)) = rpos b) by (unfold zlen in *; rewrite firstn_length; lia).
          pose proof FA as FA'. apply (flash_append_ok d) in FA; auto. destruct FA as (B & I2 & T). cbn [fst].
          split; [exact B|]. split; [exact I2|]. destruct T as [[-> T]|[-> [_ _]]].
          + rewrite T. unfold tx_data. rewrite I. unfold b1. cbn [in_ram fpos flash]. rewrite F0. reflexivity.
          + unfold flash_append in FA'. unfold b1 in FA' at 1. cbn [fpos] in FA'. rewrite F0, Zr in FA'.
            replace (0 + rpos b <=? flash_size d) with true in FA' by lia. injection FA' as _ FA'. lia.
        - split; [exact B1|]. split; [reflexivity|]. unfold tx_data. rewrite I. unfold b1. cbn [in_ram fpos flash]. rewrite F0.
          replace (rpos b) with 0 by lia. reflexivity. }
      destruct B2 as (B2 & I2 & T2).
      destruct (flash_append (flash_size d) b2 bs) as [b3 m] eqn:FA. injection H as <- <-.
      apply (flash_append_ok d) in FA; auto. destruct FA as ([Q1 Q2 Q3 Q4 Q5] & I3 & T3).
      split; [constructor; cbn; auto; try lia; discriminate|].
      assert (TD : tx_data (mkBuf (ram b3) (flash b3) false 0 (fpos b3)) = tx_data b3) by (unfold tx_data; rewrite I3; reflexivity).
      rewrite TD, <- T2. exact T3.
  - apply (flash_append_ok d) in H; auto. destruct H as (B & _ & T). auto.
Qed.

Lemma tx_data_len d b : buf_ok d b -> device_ok d -> zlen (tx_data b) <= flash_size d.
Proof.
  intros [O1 O2 O3 O4 O5] [_ D1 D2 _]. unfold tx_data, zlen in *. destruct (in_ram b); rewrite firstn_length; lia.
Qed.
Lemma boot_buf d : device_ok d -> buf_ok d (bufs (boot d)).
Proof.
  intros [_ D1 D2 _]. constructor; cbn; try lia; unfold zeros, zlen; rewrite repeat_length; lia.
Qed.
Lemma boot_data d : tx_data (bufs (boot d)) = [].
Proof. reflexivity. Qed.

(** * Parses only write the parse objects *)
Lemma tpe d s : let s' := tx_parse_effect d s in
  tx_initialized s' = tx_initialized s /\ tx_bufferFull s' = tx_bufferFull s /\ hdPath s' = hdPath s /\
  bufs s' = bufs s /\ answer s' = answer s /\ expert_mode s' = expert_mode s /\ pending s' = pending s.
Proof.
  unfold tx_parse_effect.
  repeat match goal with |- context [match ?x with _ => _ end] => destruct x; cbv zeta end; repeat split.
Qed.
Lemma tpm s : let s' := tx_parse_message_effect s in
  tx_initialized s' = tx_initialized s /\ tx_bufferFull s' = tx_bufferFull s /\ hdPath s' = hdPath s /\
  bufs s' = bufs s /\ answer s' = answer s /\ expert_mode s' = expert_mode s /\ pending s' = pending s.
Proof. unfold tx_parse_message_effect. destruct (tx_data (bufs s)); repeat split. Qed.
Lemma tpw d s : let s' := tx_parse_wasm_effect d s in
  tx_initialized s' = tx_initialized s /\ tx_bufferFull s' = tx_bufferFull s /\ hdPath s' = hdPath s /\
  bufs s' = bufs s /\ answer s' = answer s /\ expert_mode s' = expert_mode s /\ pending s' = pending s.
Proof. unfold tx_parse_wasm_effect. destruct (tx_data (bufs s)); repeat split. Qed.

(** * Commands *)
Lemma le_val_S bs : le_val bs = S.value bs.
Proof. apply le_val_value. Qed.
Lemma words_path bs : words 5 (data_of bs) = SA.path bs.
Proof.
  unfold SA.path, SA.word, SA.payload, data_of. cbn [words map]. unfold u32_le. rewrite !le_val_S.
  rewrite !skipn_skipn. reflexivity.
Qed.

(** the kinds of command *)
Inductive kind := KOther | KAddr | KInit | KChunk (last : bool) | KBad.
Definition kind_of (bs : list Z) (pin : bool) : kind :=
  if negb pin then KOther
  else if SA.address bs then KAddr
  else if SA.initial bs then KInit
  else if SA.chunk bs then KChunk (SA.p1 bs =? 2)
  else if SA.signing bs && (SA.p2 bs =? 0) then KBad
  else KOther.

Definition same_but_path (s s' : app) : Prop :=
  tx_initialized s' = tx_initialized s /\ tx_bufferFull s' = tx_bufferFull s /\ bufs s' = bufs s /\
  ctx s' = ctx s /\ obj_type s' = obj_type s /\ obj_header s' = obj_header s /\ obj_v1 s' = obj_v1 s /\
  expert_mode s' = expert_mode s.

Lemma extract_inv bs s s' r : extractHDPath bs s = (s', r) ->
  (zlen (data_of bs) < 20 /\ s' = s /\ r = Some WRONG_LENGTH) \/
  (20 <= zlen (data_of bs) /\ s' = set_path (SA.path bs) s /\
   r = if path_ok (SA.path bs) then None else Some DATA_INVALID).
Proof.
  unfold extractHDPath. fold (data_of bs). rewrite words_path. intros H.
  destruct (zlen (data_of bs) <? 20) eqn:E; injection H as <- <-; [left|right]; repeat split; lia.
Qed.

(** an instruction handler is only reached by its command *)
Lemma apdu_inv d bs pin s r :
  handleApdu d bs pin s = r ->
  match kind_of bs pin with
  | KOther => exists data sw, r = Ret (s, Status data sw) /\ 0 <= sw < 65536
  | KAddr => r = handleGetAddr d bs s
  | _ => (SA.ins bs = 2 /\ r = handleSign d bs s) \/ (SA.ins bs = 3 /\ r = handleSignMessage d bs s) \/
         (SA.ins bs = 4 /\ r = handleSignWasm d bs s)
  end.
Proof.
  intros <-. unfold kind_of, handleApdu, SA.address, SA.initial, SA.chunk, SA.signing, SA.command, SA.cla, SA.ins, SA.p2, SA.p1.
  change (S.len bs) with (zlen bs). change 0x11 with 17.
  unfold INS_GET_VERSION, INS_GET_ADDR, INS_SIGN, INS_SIGN_MSG, INS_SIGN_WASM, throw.
  assert (O : forall data sw, 0 <= sw < 65536 -> exists data' sw', @Ret (app * reply) (s, Status data sw) = Ret (s, Status data' sw') /\ 0 <= sw' < 65536)
    by (intros data sw X; exists data, sw; auto).
  destruct (nth 0 bs 0 =? 17) eqn:E0; [|cbn [negb andb]; destruct pin; cbn [negb]; apply O; unfold CLA_NOT_SUPPORTED; lia].
  destruct (5 <=? zlen bs) eqn:E1; [|cbn [negb andb]; replace (zlen bs <? 5) with true by lia; destruct pin; cbn [negb]; apply O; unfold WRONG_LENGTH; lia].
  replace (zlen bs <? 5) with false by lia. cbn [negb andb].
  destruct (nth 1 bs 0 =? 0) eqn:I0.
  { replace (nth 1 bs 0) with 0 by lia. cbn [Z.eqb orb andb]. destruct pin; cbn [negb]; apply O; unfold SW_OK; lia. }
  destruct pin; cbn [negb].
  2:{ destruct (_ || _); apply O; unfold COMMAND_NOT_ALLOWED, INS_NOT_SUPPORTED; lia. }
  destruct (nth 1 bs 0 =? 1) eqn:I1; [reflexivity|]. cbn [orb].
  destruct (nth 1 bs 0 =? 2) eqn:I2; cbn [orb andb].
  { destruct (nth 3 bs 0 =? 0) eqn:P2; cbn [andb].
    - destruct (nth 2 bs 0 =? 0); [left; split; [lia|reflexivity]|].
      destruct (nth 2 bs 0 =? 1); [left; split; [lia|reflexivity]|].
      destruct (nth 2 bs 0 =? 2); left; split; lia || reflexivity.
    - unfold handleSign, process_chunk, P2_of. rewrite P2. cbn [negb]. apply O. unfold INVALIDP1P2; lia. }
  destruct (nth 1 bs 0 =? 3) eqn:I3; cbn [orb andb].
  { destruct (nth 3 bs 0 =? 0) eqn:P2; cbn [andb].
    - destruct (nth 2 bs 0 =? 0); [right; left; split; [lia|reflexivity]|].
      destruct (nth 2 bs 0 =? 1); [right; left; split; [lia|reflexivity]|].
      destruct (nth 2 bs 0 =? 2); right; left; split; lia || reflexivity.
    - unfold handleSignMessage, process_chunk, P2_of. rewrite P2. cbn [negb]. apply O. unfold INVALIDP1P2; lia. }
  destruct (nth 1 bs 0 =? 4) eqn:I4; cbn [orb andb].
  { destruct (nth 3 bs 0 =? 0) eqn:P2; cbn [andb].
    - destruct (nth 2 bs 0 =? 0); [right; right; split; [lia|reflexivity]|].
      destruct (nth 2 bs 0 =? 1); [right; right; split; [lia|reflexivity]|].
      destruct (nth 2 bs 0 =? 2); right; right; split; lia || reflexivity.
    - unfold handleSignWasm, process_wasm_chunk, P2_of. rewrite P2. cbn [negb]. apply O. unfold INVALIDP1P2; lia. }
  apply O. unfold INS_NOT_SUPPORTED; lia.
Qed.

(** * One command *)
(** appending a chunk of a raw-WASM deploy *)
Inductive wapp (d : device) (bs : list Z) (s : app) : app -> Prop :=
| WAppend b n : buf_append (ram_size d) (flash_size d) (bufs s) (data_of bs) = (b, n) ->
    tx_bufferFull s = true \/ n = zlen (data_of bs) -> wapp d bs s (set_bufs b s)
| WFull b n h : buf_append (ram_size d) (flash_size d) (bufs s) (data_of bs) = (b, n) ->
    tx_bufferFull s = false -> n <> zlen (data_of bs) -> tx_parse_wasm d (set_bufs b s) = Ret h ->
    wapp d bs s (set_full true (tx_parse_wasm_effect d (set_bufs b s))).
(** the parse at the last chunk *)
Inductive wpar (d : device) (s : app) : app -> Prop :=
| WParsed : tx_bufferFull s = true -> wpar d s s
| WParse h : tx_bufferFull s = false -> tx_parse_wasm d s = Ret h -> wpar d s (tx_parse_wasm_effect d s).

Definition reset_bufs (s : app) : app := set_bufs (buf_reset (bufs s)) s.

Inductive act (d : device) (s : app) (bs : list Z) (pin : bool) : app -> reply -> Prop :=
| ActOther data sw : kind_of bs pin = KOther -> 0 <= sw < 65536 -> act d s bs pin s (Status data sw)
| ActBad : kind_of bs pin = KBad -> act d s bs pin (set_init false s) (Status [] INVALIDP1P2)
| ActAddrShort : kind_of bs pin = KAddr -> zlen (data_of bs) < 20 -> act d s bs pin s (Status [] WRONG_LENGTH)
| ActAddrBad : kind_of bs pin = KAddr -> 20 <= zlen (data_of bs) -> path_ok (SA.path bs) = false ->
    act d s bs pin (set_path (SA.path bs) s) (Status [] DATA_INVALID)
| ActAddrFail : kind_of bs pin = KAddr -> 20 <= zlen (data_of bs) -> path_ok (SA.path bs) = true ->
    fill_address d (SA.path bs) = Fail EXECUTION_ERROR ->
    act d s bs pin (set_answer (zeros 101) (set_path (SA.path bs) s)) (Status [] EXECUTION_ERROR)
| ActAddrOk a : kind_of bs pin = KAddr -> 20 <= zlen (data_of bs) -> path_ok (SA.path bs) = true ->
    fill_address d (SA.path bs) = Ret a -> SA.p1 bs = 0 ->
    act d s bs pin (set_answer a (set_path (SA.path bs) s)) (Status a SW_OK)
| ActAddrShow a : kind_of bs pin = KAddr -> 20 <= zlen (data_of bs) -> path_ok (SA.path bs) = true ->
    fill_address d (SA.path bs) = Ret a -> SA.p1 bs <> 0 ->
    act d s bs pin (set_pending (Some RAddr) (set_answer a (set_path (SA.path bs) s))) NoReply
| ActInitShort : kind_of bs pin = KInit -> zlen (data_of bs) < 20 ->
    act d s bs pin (reset_bufs s) (Status [] WRONG_LENGTH)
| ActInitBad : kind_of bs pin = KInit -> 20 <= zlen (data_of bs) -> path_ok (SA.path bs) = false ->
    act d s bs pin (set_path (SA.path bs) (reset_bufs s)) (Status [] DATA_INVALID)
| ActInitOk f : kind_of bs pin = KInit -> 20 <= zlen (data_of bs) -> path_ok (SA.path bs) = true ->
    f = (if SA.ins bs =? 4 then false else tx_bufferFull s) ->
    act d s bs pin (set_full f (set_init true (set_path (SA.path bs) (reset_bufs s)))) (Status [] SW_OK)
| ActNoSession l : kind_of bs pin = KChunk l -> tx_initialized s = false ->
    act d s bs pin s (Status [] TX_NOT_INITIALIZED)
| ActTooLong l b n : kind_of bs pin = KChunk l -> tx_initialized s = true -> SA.ins bs = 2 \/ SA.ins bs = 3 ->
    buf_append (ram_size d) (flash_size d) (bufs s) (data_of bs) = (b, n) -> n <> zlen (data_of bs) ->
    act d s bs pin (set_init false (set_bufs b s)) (Status [] OUTPUT_BUFFER_TOO_SMALL)
| ActMore b : kind_of bs pin = KChunk false -> tx_initialized s = true -> SA.ins bs = 2 \/ SA.ins bs = 3 ->
    buf_append (ram_size d) (flash_size d) (bufs s) (data_of bs) = (b, zlen (data_of bs)) ->
    act d s bs pin (set_bufs b s) (Status [] SW_OK)
| ActSign b t : kind_of bs pin = KChunk true -> tx_initialized s = true -> SA.ins bs = 2 ->
    buf_append (ram_size d) (flash_size d) (bufs s) (data_of bs) = (b, zlen (data_of bs)) ->
    tx_parse (plat d) (expert_mode s) (tx_data b) = Ret t ->
    act d s bs pin (set_pending (Some (RTx t)) (tx_parse_effect d (set_init false (set_bufs b s)))) NoReply
| ActSignErr b e : kind_of bs pin = KChunk true -> tx_initialized s = true -> SA.ins bs = 2 ->
    buf_append (ram_size d) (flash_size d) (bufs s) (data_of bs) = (b, zlen (data_of bs)) ->
    tx_parse (plat d) (expert_mode s) (tx_data b) = Fail e ->
    act d s bs pin (tx_parse_effect d (set_init false (set_bufs b s))) (Status (parser_getErrorDescription e) DATA_INVALID)
| ActMsg b : kind_of bs pin = KChunk true -> tx_initialized s = true -> SA.ins bs = 3 ->
    buf_append (ram_size d) (flash_size d) (bufs s) (data_of bs) = (b, zlen (data_of bs)) ->
    parser_parse_message (tx_data b) = Ret tt ->
    act d s bs pin (set_pending (Some RMsg) (tx_parse_message_effect (set_bufs b s))) NoReply
| ActMsgErr b e : kind_of bs pin = KChunk true -> tx_initialized s = true -> SA.ins bs = 3 ->
    buf_append (ram_size d) (flash_size d) (bufs s) (data_of bs) = (b, zlen (data_of bs)) ->
    parser_parse_message (tx_data b) = Fail e ->
    act d s bs pin (tx_parse_message_effect (set_bufs b s)) (Status (parser_getErrorDescription e) DATA_INVALID)
| ActWReject l b n e : kind_of bs pin = KChunk l -> tx_initialized s = true -> SA.ins bs = 4 ->
    buf_append (ram_size d) (flash_size d) (bufs s) (data_of bs) = (b, n) ->
    tx_bufferFull s = false -> n <> zlen (data_of bs) -> tx_parse_wasm d (set_bufs b s) = Fail e ->
    act d s bs pin (set_init false (tx_parse_wasm_effect d (set_bufs b s))) (Status [] EXECUTION_ERROR)
| ActWMore s1 : kind_of bs pin = KChunk false -> tx_initialized s = true -> SA.ins bs = 4 -> wapp d bs s s1 ->
    act d s bs pin s1 (Status [] SW_OK)
| ActWErr1 s1 e : kind_of bs pin = KChunk true -> tx_initialized s = true -> SA.ins bs = 4 -> wapp d bs s s1 ->
    tx_bufferFull s1 = false -> tx_parse_wasm d (set_init false s1) = Fail e ->
    act d s bs pin (tx_parse_wasm_effect d (set_init false s1)) (Status [] EXECUTION_ERROR)
| ActWErr2 s1 s2 e : kind_of bs pin = KChunk true -> tx_initialized s = true -> SA.ins bs = 4 -> wapp d bs s s1 ->
    wpar d (set_init false s1) s2 -> tx_validate_wasm d s2 = Fail e ->
    act d s bs pin s2 (Status [] EXECUTION_ERROR)
| ActW s1 s2 : kind_of bs pin = KChunk true -> tx_initialized s = true -> SA.ins bs = 4 -> wapp d bs s s1 ->
    wpar d (set_init false s1) s2 -> tx_validate_wasm d s2 = Ret tt ->
    act d s bs pin (set_pending (Some RWasm) s2) NoReply.

Lemma kind_p2 bs pin k : kind_of bs pin = k -> match k with KInit => SA.p2 bs = 0 /\ SA.p1 bs = 0
  | KChunk l => SA.p2 bs = 0 /\ SA.p1 bs = (if l then 2 else 1) | KBad => SA.p2 bs = 0 /\ SA.p1 bs <> 0 /\ SA.p1 bs <> 1 /\ SA.p1 bs <> 2 | _ => True end.
Proof.
  intros <-. unfold kind_of. destruct pin; cbn [negb]; [|exact I]. destruct (SA.address bs); [exact I|].
  unfold SA.initial, SA.chunk. destruct (SA.signing bs); cbn [andb]; [|exact I].
  destruct (SA.p2 bs =? 0) eqn:E; cbn [andb]; [|exact I].
  destruct (SA.p1 bs =? 0) eqn:E0; [lia|]. destruct (SA.p1 bs =? 1) eqn:E1; destruct (SA.p1 bs =? 2) eqn:E2; cbn [orb]; lia.
Qed.

Lemma fill_fail d p e : fill_address d p = Fail e -> e = EXECUTION_ERROR.
Proof.
  unfold fill_address. destruct (pubkey d p); [|congruence].
  destruct (encode_addr _ _ _) as [[a []]| |]; congruence.
Qed.

Lemma wappend_inv d bs s r : wasm_append d bs s = r -> tx_initialized s = true ->
  match r with
  | Ret (inl s1) => wapp d bs s s1
  | Ret (inr s1) => exists b n e, buf_append (ram_size d) (flash_size d) (bufs s) (data_of bs) = (b, n) /\
     tx_bufferFull s = false /\ n <> zlen (data_of bs) /\ tx_parse_wasm d (set_bufs b s) = Fail e /\
     s1 = set_init false (tx_parse_wasm_effect d (set_bufs b s))
  | Fail _ => False
  | Undef _ => True
  end.
Proof.
  intros <- I. unfold wasm_append, append_chunk.
  destruct (buf_append (ram_size d) (flash_size d) (bufs s) (data_of bs)) as [b n] eqn:A.
  change (tx_bufferFull (set_bufs b s)) with (tx_bufferFull s).
  destruct (tx_bufferFull s) eqn:F; cbn [negb andb]; [eapply WAppend; eauto|].
  destruct (n =? zlen (data_of bs)) eqn:En; cbn [negb]; [eapply WAppend; eauto; right; lia|].
  destruct (tx_parse_wasm d (set_bufs b s)) as [h|e|u] eqn:T; [|exists b, n, e; repeat split; auto; lia | exact Logic.I].
  eapply WFull; eauto. lia.
Qed.

Lemma step_act d s bs pin s' rp :
  pending s = None -> step d s (Apdu bs pin) = Ret (s', rp) -> act d s bs pin s' rp.
Proof.
  intros N H. unfold step in H. rewrite N in H. apply apdu_inv in H.
  pose proof (kind_p2 bs pin) as KP.
  destruct (kind_of bs pin) as [| | |l|] eqn:K; specialize (KP _ eq_refl); cbn beta iota in KP.
  - destruct H as (data & sw & H & Hs). injection H as -> ->. constructor; auto.
  - unfold handleGetAddr in H. destruct (extractHDPath bs s) as [s1 r] eqn:E. apply extract_inv in E.
    destruct E as [(L & -> & ->)|(L & -> & ->)].
    + injection H as -> ->. apply ActAddrShort; auto.
    + destruct (path_ok (SA.path bs)) eqn:PO.
      * change (hdPath (set_path (SA.path bs) s)) with (SA.path bs) in H.
        destruct (fill_address d (SA.path bs)) as [a|e|u] eqn:F; try discriminate.
        -- change (P1_of bs) with (SA.p1 bs) in H. destruct (SA.p1 bs =? 0) eqn:P; injection H as -> ->.
           ++ eapply ActAddrOk; eauto; lia.
           ++ eapply ActAddrShow; eauto; lia.
        -- pose proof (fill_fail _ _ _ F); subst e. injection H as -> ->. apply ActAddrFail; auto.
      * injection H as -> ->. apply ActAddrBad; auto.
  - destruct KP as [P2 P1].
    assert (CI : forall r, chunk_init bs s = r ->
       (zlen (data_of bs) < 20 /\ r = (reset_bufs s, Some WRONG_LENGTH)) \/
       (20 <= zlen (data_of bs) /\ path_ok (SA.path bs) = false /\ r = (set_path (SA.path bs) (reset_bufs s), Some DATA_INVALID)) \/
       (20 <= zlen (data_of bs) /\ path_ok (SA.path bs) = true /\ r = (set_path (SA.path bs) (reset_bufs s), None))).
    { intros [s1 r] X. unfold chunk_init in X. apply extract_inv in X. destruct X as [(L & -> & ->)|(L & -> & ->)]; [left; auto|right].
      destruct (path_ok (SA.path bs)); [right | left]; auto. }
    specialize (CI _ eq_refl).
    destruct H as [[In H]|[[In H]|[In H]]];
    [unfold handleSign, process_chunk in H | unfold handleSignMessage, process_chunk in H | unfold handleSignWasm, process_wasm_chunk in H];
    change (P2_of bs) with (SA.p2 bs) in H; change (P1_of bs) with (SA.p1 bs) in H; rewrite P1, P2 in H; cbn [Z.eqb negb] in H;
    destruct CI as [(L & E)|[(L & PO & E)|(L & PO & E)]]; rewrite E in H; injection H as -> ->;
    try (apply ActInitShort; auto; fail); try (apply ActInitBad; auto; fail).
    + apply (ActInitOk d s bs pin (tx_bufferFull s)); auto. replace (SA.ins bs =? 4) with false by lia. reflexivity.
    + apply (ActInitOk d s bs pin (tx_bufferFull s)); auto. replace (SA.ins bs =? 4) with false by lia. reflexivity.
    + apply (ActInitOk d s bs pin false); auto. replace (SA.ins bs =? 4) with true by lia. reflexivity.
  - destruct KP as [P2 P1].
    assert (PC : forall r, process_chunk d bs s = r ->
      (tx_initialized s = false /\ r = Threw TX_NOT_INITIALIZED s) \/
      (tx_initialized s = true /\ exists b n, buf_append (ram_size d) (flash_size d) (bufs s) (data_of bs) = (b, n) /\
         ((n <> zlen (data_of bs) /\ r = Threw OUTPUT_BUFFER_TOO_SMALL (set_init false (set_bufs b s))) \/
          (n = zlen (data_of bs) /\ r = if l then LastChunk (set_bufs b s) else More (set_bufs b s))))).
    { intros r <-. unfold process_chunk. change (P2_of bs) with (SA.p2 bs). change (P1_of bs) with (SA.p1 bs). rewrite P1, P2.
      destruct (tx_initialized s); [right | left; destruct l; auto]. split; [reflexivity|].
      unfold append_chunk. destruct (buf_append (ram_size d) (flash_size d) (bufs s) (data_of bs)) as [b n].
      exists b, n. split; [reflexivity|]. destruct (n =? zlen (data_of bs)) eqn:En; destruct l; [right|right|left|left]; (split; [lia | reflexivity]). }
    specialize (PC _ eq_refl).
    destruct H as [[In H]|[[In H]|[In H]]].
    + unfold handleSign in H. destruct PC as [[In0 E]|[In0 (b & n & A & [[Nz E]|[-> E]])]]; rewrite E in H.
      * injection H as -> ->. eapply ActNoSession; eauto.
      * injection H as -> ->. eapply ActTooLong; eauto.
      * destruct l.
        -- cbv zeta in H. change (expert_mode (set_init false (set_bufs b s))) with (expert_mode s) in H.
           change (bufs (set_init false (set_bufs b s))) with b in H.
           destruct (tx_parse (plat d) (expert_mode s) (tx_data b)) as [t|e|u] eqn:T; try discriminate; injection H as -> ->;
           [eapply ActSign | eapply ActSignErr]; eauto.
        -- injection H as -> ->. eapply ActMore; eauto.
    + unfold handleSignMessage in H. destruct PC as [[In0 E]|[In0 (b & n & A & [[Nz E]|[-> E]])]]; rewrite E in H.
      * injection H as -> ->. eapply ActNoSession; eauto.
      * injection H as -> ->. eapply ActTooLong; eauto.
      * destruct l.
        -- cbv zeta in H. change (bufs (set_bufs b s)) with b in H.
           destruct (parser_parse_message (tx_data b)) as [[]|e|u] eqn:T; try discriminate; injection H as -> ->;
           [eapply ActMsg | eapply ActMsgErr]; eauto.
        -- injection H as -> ->. eapply ActMore; eauto.
    + unfold handleSignWasm, process_wasm_chunk in H. change (P2_of bs) with (SA.p2 bs) in H. change (P1_of bs) with (SA.p1 bs) in H.
      rewrite P1, P2 in H.
      destruct (tx_initialized s) eqn:In0.
      2:{ destruct l; cbn [Z.eqb negb orb] in H; injection H as -> ->; eapply ActNoSession; eauto. }
      pose proof (wappend_inv d bs s _ eq_refl In0) as W.
      replace (((if l then 2 else 1) =? 1) || ((if l then 2 else 1) =? 2)) with true in H by (destruct l; reflexivity).
      replace ((if l then 2 else 1) =? 0) with false in H by (destruct l; reflexivity). cbn [negb Z.eqb] in H.
      destruct (wasm_append d bs s) as [[s1|s1]|e|u]; try discriminate.
      * destruct l.
        -- change (2 =? 1) with false in H. cbv iota zeta in H. change (tx_bufferFull (set_init false s1)) with (tx_bufferFull s1) in H.
           destruct (tx_bufferFull s1) eqn:F.
           ++ destruct (tx_validate_wasm d (set_init false s1)) as [[]|e|u] eqn:V; try discriminate; injection H as -> ->;
              [eapply ActW | eapply ActWErr2]; eauto; apply WParsed; exact F.
           ++ destruct (tx_parse_wasm d (set_init false s1)) as [h|e|u] eqn:T; try discriminate.
              ** destruct (tx_validate_wasm d (tx_parse_wasm_effect d (set_init false s1))) as [[]|e|u] eqn:V; try discriminate; injection H as -> ->;
                 [eapply ActW | eapply ActWErr2]; eauto; eapply WParse; eauto.
              ** injection H as -> ->. eapply ActWErr1; eauto.
        -- injection H as -> ->. eapply ActWMore; eauto.
      * destruct W as (b & n & e & A & F & Nz & T & ->). injection H as -> ->. eapply ActWReject; eauto.
  - destruct KP as (P2 & P0 & P1 & P3).
    destruct H as [[In H]|[[In H]|[In H]]];
    [unfold handleSign, process_chunk in H | unfold handleSignMessage, process_chunk in H | unfold handleSignWasm, process_wasm_chunk in H];
    change (P2_of bs) with (SA.p2 bs) in H; change (P1_of bs) with (SA.p1 bs) in H; rewrite P2 in H; cbn [Z.eqb negb] in H;
    replace (SA.p1 bs =? 0) with false in H by lia; replace (SA.p1 bs =? 1) with false in H by lia; replace (SA.p1 bs =? 2) with false in H by lia;
    cbn [orb] in H; injection H as -> ->; apply ActBad; auto.
Qed.
