(** Statements about accepted deploys, ready to be used by the property file. *)
From Verif Require Import Base Zxlib Crypto Utils RuntimeArg Deploy DeployUI TxV1 TxV1UI Parser BaseFacts Spec Exec ArgsFacts ReaderFacts SpecText TextFacts RangeFacts BindFacts OklFacts Demo.
Import S ST.

(** the first item *)
Lemma hash_item pf x kl data v dh :
  hash32 (p_hash pf) -> bytes data -> zlen data < 65535 ->
  tx_parse pf x (0 :: data) = Ret (TDeploy v) ->
  slice data (header_length_deploy (dheader v)) 32 = Some dh ->
  tx_getItem pf x kl (0 :: data) (TDeploy v) 0 = Ret (mkItem (str "Txn hash") (VPaged (cep57 (p_hash pf dh) dh))).
Proof.
  intros Hh B L H SD.
  destruct (shown_all pf x kl data v Hh B L H) as [NI _].
  assert (W : wf (ctx_of pf x false kl data (zlen data))) by (apply wf_ctx; auto; lia).
  unfold tx_getItem. pose proof (zlen_nonneg data). rewrite zlen_cons, u16_small by lia.
  replace (1 + zlen data - 1) with (zlen data) by lia. set (e := ctx_of pf x false kl data (zlen data)) in *.
  cbn [getItem getNumItems] in *. unfold getItemDeploy. rewrite step_ask. change (expert e) with x.
  rewrite step_check by (destruct x; lia). change (0 =? 0) with true. cbv iota.
  pose proof (header_len_range (dheader v)). rewrite step_set_off by lia. rewrite step_get_off.
  pose proof (slice_len _ _ _ _ SD) as Z.
  rewrite (bind_Ret _ _ _ _ _ _ (parser_printBytes_at dh e (header_length_deploy (dheader v)) 32 (header_length_deploy (dheader v)) W
             ltac:(unfold at_; rewrite Z; exact SD) ltac:(lia) ltac:(lia))).
  reflexivity.
Qed.

(** any item of an accepted deploy *)
Lemma tx_item pf x kl data v idx :
  hash32 (p_hash pf) -> bytes data -> zlen data < 65535 ->
  tx_parse pf x (0 :: data) = Ret (TDeploy v) ->
  tx_getItem pf x kl (0 :: data) (TDeploy v) idx = fst (getItemDeploy v idx (ctx_of pf x false 40 data (zlen data)) 0).
Proof.
  intros Hh B L H. pose proof (item_kl pf x kl data v idx 0 Hh B L H) as KL. cbv zeta in KL.
  unfold tx_getItem. pose proof (zlen_nonneg data). rewrite zlen_cons, u16_small by lia.
  replace (1 + zlen data - 1) with (zlen data) by lia. rewrite <- KL. reflexivity.
Qed.

(** the checks made on the hashes *)
Lemma hashes_checked pf x data v :
  hash32 (p_hash pf) -> bytes data -> zlen data < 65535 ->
  tx_parse pf x (0 :: data) = Ret (TDeploy v) ->
  exists hdr dh body rest alg key f24 bh post,
    data = hdr ++ dh ++ body ++ rest /\ zlen dh = 32 /\ p_hash pf hdr = dh /\
    data = [alg] ++ key ++ f24 ++ bh ++ post /\
    (alg = 1 /\ zlen key = 32 \/ alg = 2 /\ zlen key = 33) /\ zlen f24 = 24 /\ zlen bh = 32 /\
    p_hash pf body = bh /\
    zlen (hdr ++ dh ++ body) = snd (parse_content 0 (ctx_of pf x false 40 data (zlen data)) 0) /\
    zlen hdr = header_length_deploy (dheader v) /\
    (forall kl, tx_getItem pf x kl (0 :: data) (TDeploy v) 0
                = Ret (mkItem (str "Txn hash") (VPaged (cep57 (p_hash pf dh) dh)))).
Proof.
  intros Hh B L H.
  destruct (accepted_deploy _ _ _ _ Hh B L H) as (W & o1 & o2 & t & o3 & its & o4 & hdr & dh & body & bh & RD & RP & At & Tr & RS & Dt & Ct
     & It & L1 & L2 & L3 & T1 & T2 & PK & A0 & S1 & S2 & H1 & S3 & S4 & H2).
  set (e := ctx_of pf x false 40 data (zlen data)) in *. set (h := dheader v) in *.
  pose proof (slice_bounds _ _ _ _ S4) as B4.
  assert (PL : pubkeyLen h = 33 \/ pubkeyLen h = 34) by (unfold pubkeyLen; destruct (_ =? 2); lia).
  destruct (slice_total data 1 (pubkeyLen h - 1)) as (key & SK); [lia|lia|lia|].
  destruct (slice_total data (pubkeyLen h) 24) as (f24 & SF); [lia|lia|lia|].
  pose proof (slice_len _ _ _ _ SK) as ZK. pose proof (slice_len _ _ _ _ SF) as ZF.
  pose proof (slice_len _ _ _ _ S4) as ZB. pose proof (slice_len _ _ _ _ S2) as ZH. pose proof (slice_len _ _ _ _ S3) as ZBo.
  pose proof (slice_len _ _ _ _ S1) as ZHd.
  assert (S5 : slice data 0 (header_length_deploy h + 32) = Some (hdr ++ dh)) by (eapply slice_app; [exact S1|exact S2]).
  assert (S6 : slice data 0 (header_length_deploy h + 32 + (o2 - (header_length_deploy h + 32))) = Some ((hdr ++ dh) ++ body))
    by (eapply slice_app; [exact S5|exact S3]).
  destruct (slice_0 _ _ _ S6) as (rest & E).
  assert (S7 : slice data 0 (1 + (pubkeyLen h - 1)) = Some ([pubkeytype h] ++ key)) by (eapply slice_app; [exact A0|exact SK]).
  replace (1 + (pubkeyLen h - 1)) with (pubkeyLen h) in S7 by lia.
  assert (S8 : slice data 0 (pubkeyLen h + 24) = Some (([pubkeytype h] ++ key) ++ f24)) by (eapply slice_app; [exact S7|exact SF]).
  assert (S9 : slice data 0 (pubkeyLen h + 24 + 32) = Some ((([pubkeytype h] ++ key) ++ f24) ++ bh)) by (eapply slice_app; [exact S8|exact S4]).
  destruct (slice_0 _ _ _ S9) as (post & E2).
  exists hdr, dh, body, rest, (pubkeytype h), key, f24, bh, post.
  split; [rewrite E, <- !app_assoc; reflexivity|].
  split; [exact ZH|]. split; [exact H1|].
  split; [rewrite E2, <- !app_assoc; reflexivity|].
  split; [unfold pubkeyLen in ZK, PL; fold h in PK; destruct PK as [PK|PK]; rewrite PK in *; cbn [Z.eqb Pos.eqb] in ZK; [left|right]; lia|].
  split; [exact ZF|]. split; [exact ZB|]. split; [exact H2|].
  split.
  { unfold parse_content. change (0 =? content_Deploy) with true. cbv iota. unfold bind. fold e. rewrite RD. cbn [snd ret].
    rewrite !zlen_app, ZHd, ZH, ZBo. lia. }
  split; [exact ZHd|].
  intros kl. apply hash_item; auto.
Qed.

(** two accepted deploys that show the same hash *)
Lemma app_inj_len {A} (a b c d : list A) : a ++ b = c ++ d -> List.length a = List.length c -> a = c /\ b = d.
Proof.
  revert c. induction a as [|x a IH]; intros [|y c] E L; try discriminate; [auto|].
  cbn in E, L. injection E as -> E. destruct (IH c E ltac:(lia)) as [-> ->]. auto.
Qed.
Lemma zlen_nat {A} (a b : list A) : zlen a = zlen b -> List.length a = List.length b.
Proof. unfold zlen. lia. Qed.

Lemma slice_mid a b c : slice (a ++ b ++ c) (zlen a) (zlen b) = Some b.
Proof.
  pose proof (zlen_nonneg a). pose proof (zlen_nonneg b). pose proof (zlen_nonneg c).
  unfold slice. rewrite !zlen_app.
  replace ((0 <=? zlen a) && (0 <=? zlen b) && (zlen a + zlen b <=? zlen a + (zlen b + zlen c))) with true by lia.
  f_equal. unfold zlen. rewrite !Nat2Z.id. rewrite skipn_app, Nat.sub_diag, skipn_all. cbn [app skipn].
  rewrite firstn_app, Nat.sub_diag, firstn_all. apply app_nil_r.
Qed.

Lemma same_hash pf x1 x2 d1 d2 v1 v2 it :
  hash32 (p_hash pf) -> bytes d1 -> bytes d2 -> zlen d1 < 65535 -> zlen d2 < 65535 ->
  tx_parse pf x1 (0 :: d1) = Ret (TDeploy v1) -> tx_parse pf x2 (0 :: d2) = Ret (TDeploy v2) ->
  lenDependencies (dheader v1) mod 2048 < 2042 -> lenDependencies (dheader v2) mod 2048 < 2042 ->
  tx_getItem pf x1 40 (0 :: d1) (TDeploy v1) 0 = Ret it -> tx_getItem pf x2 40 (0 :: d2) (TDeploy v2) 0 = Ret it ->
  (exists signed r1 r2, d1 = signed ++ r1 /\ d2 = signed ++ r2 /\
     snd (parse_content 0 (ctx_of pf x1 false 40 d1 (zlen d1)) 0) = zlen signed /\
     snd (parse_content 0 (ctx_of pf x2 false 40 d2 (zlen d2)) 0) = zlen signed) \/
  (exists a b, (exists p q, d1 = p ++ a ++ q) /\ (exists p q, d2 = p ++ b ++ q) /\ a <> b /\ p_hash pf a = p_hash pf b).
Proof.
  intros Hh B1 B2 L1 L2 P1 P2 N1 N2 I1 I2.
  destruct (accepted_bound _ _ _ _ Hh B1 L1 P1 N1) as (al1 & k1 & f1 & bh1 & de1 & c1 & dh1 & bo1 & r1 & E1 & K1 & F1 & Z1 & H1 & D1 & HH1 & HB1 & HL1 & C1).
  destruct (accepted_bound _ _ _ _ Hh B2 L2 P2 N2) as (al2 & k2 & f2 & bh2 & de2 & c2 & dh2 & bo2 & r2 & E2 & K2 & F2 & Z2 & H2 & D2 & HH2 & HB2 & HL2 & C2).
  set (h1 := [al1] ++ _) in *. set (h2 := [al2] ++ _) in *.
  assert (S1 : slice d1 (header_length_deploy (dheader v1)) 32 = Some dh1).
  { rewrite <- HL1, <- H1. rewrite E1 at 1. apply slice_mid. }
  assert (S2 : slice d2 (header_length_deploy (dheader v2)) 32 = Some dh2).
  { rewrite <- HL2, <- H2. rewrite E2 at 1. apply slice_mid. }
  rewrite (hash_item _ _ _ _ _ dh1 Hh B1 L1 P1 S1) in I1. rewrite (hash_item _ _ _ _ _ dh2 Hh B2 L2 P2 S2) in I2.
  assert (dh1 = dh2) as ->.
  { rewrite <- I2 in I1. injection I1 as I1. eapply cep57_inj; [| |exact I1].
    - rewrite <- HH1. apply Hh.
    - rewrite <- HH2. apply Hh. }
  destruct (list_eq_dec Z.eq_dec h1 h2) as [Eh|Nh]; [|right; exists h1, h2; split; [exists [], (dh2 ++ bo1 ++ r1); exact E1|]; split; [exists [], (dh2 ++ bo2 ++ r2); exact E2|]; split; [exact Nh|congruence]].
  assert (bh1 = bh2) as ->.
  { unfold h1, h2 in Eh. cbn [app] in Eh. injection Eh as Ea Eh.
    assert (ZK : zlen k1 = zlen k2) by lia. assert (ZF : zlen f1 = zlen f2) by lia. assert (ZB : zlen bh1 = zlen bh2) by lia.
    destruct (app_inj_len _ _ _ _ Eh (zlen_nat _ _ ZK)) as [_ Eh2].
    destruct (app_inj_len _ _ _ _ Eh2 (zlen_nat _ _ ZF)) as [_ Eh3].
    destruct (app_inj_len _ _ _ _ Eh3 (zlen_nat _ _ ZB)) as [-> _]. reflexivity. }
  destruct (list_eq_dec Z.eq_dec bo1 bo2) as [Eb|Nb]; [|right; exists bo1, bo2; split; [exists (h1 ++ dh2), r1; rewrite E1, <- !app_assoc; reflexivity|]; split; [exists (h2 ++ dh2), r2; rewrite E2, <- !app_assoc; reflexivity|]; split; [exact Nb|congruence]].
  left. exists (h1 ++ dh2 ++ bo1), r1, r2. rewrite C1, C2. rewrite Eh, Eb.
  split; [rewrite E1, Eh, Eb, <- !app_assoc; reflexivity|]. split; [rewrite E2, <- !app_assoc; reflexivity|]. auto.
Qed.

(** the payment of an accepted deploy *)
Lemma accepted_payment pf x data v :
  hash32 (p_hash pf) -> bytes data -> zlen data < 65535 ->
  tx_parse pf x (0 :: data) = Ret (TDeploy v) ->
  exists pre code nm val rest w,
    data = pre ++ ([0] ++ lv code ++ le 4 1 ++ lv nm ++ lv val ++ [8]) ++ rest /\
    zlen pre = header_length_deploy (dheader v) + 32 /\
    cstr nm = str "amount" /\
    (forall kl, tx_getItem pf x kl (0 :: data) (TDeploy v) (if x then 8 else 4) = Ret (mkItem (str "Fee") w)) /\
    (forall n bs, val = n :: bs -> zlen bs <= 64 -> exists s, w = VPaged s /\ motes_text (S.value bs) s) /\ val <> [].
Proof.
  intros Hh B L H.
  destruct (accepted_deploy _ _ _ _ Hh B L H) as (W & o1 & o2 & t & o3 & its & o4 & hdr & dh & body & bh & RD & RP & At & Tr & RS & Dt & Ct
     & It & L1 & L2 & L3 & T1 & T2 & PK & A0 & S1 & S2 & H1 & S3 & S4 & H2).
  set (e := ctx_of pf x false 40 data (zlen data)) in *. set (h := dheader v) in *.
  pose proof (header_len_range h) as HL.
  assert (Ip : in16 (header_length_deploy h + 32)) by (unfold in16; lia).
  destruct (payment_fixed _ _ _ _ W Ip RP) as (P1 & P2 & P3 & _).
  destruct (shown_all pf x 40 data v Hh B L H) as [NI K]. destruct (K (if x then 8 else 4)) as [(it & IT) _].
  { destruct x; lia. }
  pose proof (fun kl => tx_item pf x kl data v (if x then 8 else 4) Hh B L H) as TI. fold e in TI.
  rewrite TI in IT. destruct (getItemDeploy v (if x then 8 else 4) e 0) as [g og] eqn:G. cbn [fst] in IT. subst g.
  destruct (fee_item v e 0 it og P1 P2 P3 G) as (o5 & SP). fold h in SP. rewrite u16_small in SP by lia.
  destruct (payment_shape v e _ _ _ _ W Ip RP SP) as (code & nm & val & A & E1 & NM & KY & q1 & q2 & DM & AV).
  set (pm := [0] ++ _) in *.
  destruct (slice_total data 0 (header_length_deploy h + 32)) as (pre & SPre); [lia|lia|lia|].
  pose proof (slice_len _ _ _ _ SPre) as ZP.
  assert (S5 : slice data 0 (header_length_deploy h + 32 + zlen pm) = Some (pre ++ pm)) by (eapply slice_app; [exact SPre|exact A]).
  destruct (slice_0 _ _ _ S5) as (rest & E). exists pre, code, nm, val, rest, (ival it).
  split; [rewrite E, <- app_assoc; reflexivity|]. split; [exact ZP|]. split; [exact NM|].
  split; [intros kl; rewrite TI; cbn [fst]; destruct it; cbn in KY |- *; rewrite KY; reflexivity|].
  split.
  - intros n bs -> Lb.
    destruct (Z_lt_dec (q1 + zlen (n :: bs)) (blen e)) as [Lq|Gq].
    + destruct (show_u512 n bs e q1 W AV Lb Lq) as (s & E3 & MT). unfold TAG_U512 in E3. rewrite E3 in DM. injection DM as DM <-.
      exists s. auto.
    + exfalso. unfold display_runtimeArgMotes, display_pre in DM. pose proof (at_bound _ _ _ W AV). pose proof (wf_max e W).
      unfold TAG_U32, TAG_U64, TAG_U512 in DM. bx DM u q3 DP. pinv. match goal with X : (u32 _ <? _) = true |- _ => rewrite u32_small in X; [lia|pose proof (zlen_nonneg (n :: bs)); lia] end.
  - intros ->. unfold display_runtimeArgMotes, display_pre in DM. bx DM u q3 DP. pinv; discriminate.
Qed.

(** the payment follows the deploy hash *)
Lemma standard_payment pf x data v :
  hash32 (p_hash pf) -> bytes data -> zlen data < 65535 ->
  tx_parse pf x (0 :: data) = Ret (TDeploy v) ->
  exists hdr dh code nm val rest w,
    data = hdr ++ dh ++ (0 :: lv code ++ le 4 1 ++ lv nm ++ lv val ++ [8]) ++ rest /\
    zlen dh = 32 /\ p_hash pf hdr = dh /\
    (nm = str "amount" \/ exists r, nm = str "amount" ++ 0 :: r) /\
    (forall kl, tx_getItem pf x kl (0 :: data) (TDeploy v) (if x then 8 else 4) = Ret (mkItem (str "Fee") w)) /\
    exists n bs, val = n :: bs /\ (zlen bs <= 64 -> exists s, w = VPaged s /\ motes_text (S.value bs) s).
Proof.
  intros Hh B L H.
  destruct (hashes_checked _ _ _ _ Hh B L H) as (hdr & dh & body & r1 & _ & _ & _ & _ & _ & E1 & Zd & Hd & _ & _ & _ & _ & _ & _ & ZH & _).
  destruct (accepted_payment _ _ _ _ Hh B L H) as (pre & code & nm & val & rest & w & E2 & ZP & NM & IT & TX & NE).
  exists hdr, dh, code, nm, val, rest, w.
  assert (E3 : (hdr ++ dh) ++ body ++ r1 = pre ++ ([0] ++ lv code ++ le 4 1 ++ lv nm ++ lv val ++ [8]) ++ rest)
    by (rewrite <- E2, E1, <- app_assoc; reflexivity).
  assert (ZL : zlen (hdr ++ dh) = zlen pre) by (rewrite zlen_app; lia).
  destruct (app_inj_len _ _ _ _ E3 (zlen_nat _ _ ZL)) as [E4 _].
  split; [rewrite E2, <- E4, <- app_assoc; reflexivity|].
  split; [exact Zd|]. split; [exact Hd|]. split.
  - clear -NM. revert NM. generalize (str "amount"). induction nm as [|c nm IH]; intros s E; cbn in E.
    + left. congruence.
    + destruct (c =? 0) eqn:Ec.
      * right. exists nm. subst s. replace c with 0 by lia. reflexivity.
      * destruct s as [|c' s]; [discriminate|]. injection E as -> E. destruct (IH s E) as [->|(r & ->)]; [left; reflexivity|right; exists r; reflexivity].
  - split; [exact IT|]. destruct val as [|n bs]; [congruence|]. exists n, bs. split; [reflexivity|]. exact (TX n bs eq_refl).
Qed.
