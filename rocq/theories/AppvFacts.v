(** The number of approvals of an accepted TransactionV1. *)
From Verif Require Import Base Zxlib Crypto Utils RuntimeArg Deploy DeployUI TxV1 TxV1UI Parser BaseFacts Spec SpecText SpecDeploy SpecTx SpecLayout SpecAppv Exec ArgsFacts ReaderFacts RangeFacts TextFacts BindFacts SafeFacts Demo TxInv TxAccept Shows ReviewFacts.
Import S SX SL SV.

Lemma signature_inv e o r o' : wf e -> in16 o -> read_signature e o = (Ret r, o') ->
  exists t, at_ e o [t] /\ o + 1 <= blen e /\ 1 <= t <= 2 /\ o' = u16 (o + 65).
Proof.
  intros W I H. unfold read_signature in H. bx H t o1 R. bx H u o2 C. pinv.
  apply readU8_inv in R; auto. destruct R as (V & A & L & ->). exists t. split; [exact A|]. split; [exact L|].
  split; [lia|]. apply (f_equal u16). lia.
Qed.

Lemma approvals_inv e : wf e -> blen e <= 16384 -> forall k o r o', 0 <= o <= blen e + 64 ->
  iter_loop (R := unit) k (fun _ => read_public_key ;; read_signature ;; ret (Next tt)) tt e o = (Ret r, o') ->
  approvals_at (mem e) (Z.of_nat k) o o' /\ o + 66 * Z.of_nat k <= o' <= blen e + 64.
Proof.
  intros W B. induction k as [|k IH]; intros o r o' I H; cbn [iter_loop] in H.
  - apply ret_inv in H. destruct H as [_ ->]. split; [constructor | lia].
  - bx H f o1 BD. bx BD u1 o2 K. bx BD u2 o3 G. apply ret_inv in BD. destruct BD as [-> ->].
    apply public_key_inv in K; [|exact W|unfold in16; lia]. destruct K as (t & At & Lt & Vt & ->).
    assert (0 <= t <= 2) as Bt by lia.
    assert (u16 (o + (if t =? 0 then 1 else if t =? 1 then 33 else 34)) = o + key_bytes t /\ 1 <= key_bytes t <= 34) as [E K].
    { unfold key_bytes. destruct Vt as [->|[->| ->]]; cbn [Z.eqb Pos.eqb]; (split; [apply u16_small; lia | lia]). }
    rewrite E in G. apply signature_inv in G; [|exact W|unfold in16; lia]. destruct G as (s & As & Ls & Vs & ->).
    rewrite u16_small in H by lia. apply IH in H; [|lia]. destruct H as [A R].
    replace (Z.of_nat (Datatypes.S k)) with (Z.of_nat k + 1) by lia. split; [|lia].
    econstructor; [|exact A]. exists t, s. rewrite <- !at_here. auto 10.
Qed.

Lemma approvals_read e o na o' : wf e -> blen e <= 16384 -> in16 o -> read_txV1_approvals e o = (Ret na, o') ->
  exists n, here (mem e) o (le 4 n) /\ 0 <= n <= 249 /\ na = n /\ approvals_at (mem e) n (o + 4) o'.
Proof.
  intros W B I H. unfold read_txV1_approvals in H. bx H n o1 R. bx H u o2 LP. apply ret_inv in H. destruct H as [-> ->].
  apply readU32_inv in R; [|exact W|exact I]. destruct R as (V & A & L & ->). unfold in16 in I.
  rewrite loop_iter in LP. apply approvals_inv in LP; [|exact W|exact B|lia]. rewrite Z2Nat.id in LP by lia. destruct LP as [P Q].
  exists n. rewrite <- at_here. assert (0 <= n <= 249) by lia. split; [exact A|]. split; [assumption|]. split; [unfold u8; apply Z.mod_small; lia | exact P].
Qed.

Lemma v1_approvals e v o' : wf e -> blen e <= 16384 -> parser_read_transactionV1 e 0 = (Ret v, o') ->
  exists top, tbl_at (mem e) 0 top /\ here (mem e) (place 0 top 2) (le 4 (num_approvals v)) /\ 0 <= num_approvals v <= 249 /\
    approvals_at (mem e) (num_approvals v) (place 0 top 2 + 4) o' /\ o' = fin 0 top.
Proof.
  intros W B H. unfold parser_read_transactionV1 in H.
  bx H n oN N. bx H u oC C. assert (oC = 0) as -> by (clear - N C; pinv; auto). clear N C.
  bx H m o1 M. apply metadata_inv in M; [|auto|unfold in16; lia]. destruct M as (top & Tt & -> & -> & L1 & I1 & Nt).
  cbn [meta_of metadata_size fields_size] in H. rewrite !foff_off in H.
  replace (8 + 6 * zlen (t_offs top)) with (first 0 top) in H by (unfold first; change (S.len (t_offs top)) with (zlen (t_offs top)); lia).
  cbv zeta in H.
  bx H u1 o2 F0. bx H hh o3 RH. bx H u2 o4 F1. bx H pm o5 M2.
  bx H u3 o6 G0. bx H h o7 HD. bx H u4 o8 G5. bx H b o9 BD. bx H u5 o10 GS. bx H u6 o11 F2. bx H na o12 AP. bx H u7 o13 FS. bx H x o14 X.
  assert (in16 o11) as I11.
  { sok. assumption. }
  apply field_inv in F2. destruct F2 as [F2 ->]. apply field_inv in FS. destruct FS as [FS ->].
  assert (o14 = o12) as -> by (clear - X; pinv; auto).
  destruct (approvals_read _ _ _ _ W B I11 AP) as (k & A & Bk & -> & P).
  destruct b as [[a [t nt]] ep]. destruct ep as [[[et ep1] ep2] ne]. apply ret_inv in H. destruct H as [-> ->]. cbn [num_approvals].
  exists top. assert (place 0 top 2 = o10) as -> by (unfold place; change ((first 0 top + off top 2) mod 2 ^ 32) with (u32 (first 0 top + off top 2)); lia).
  split; [exact Tt|]. split; [exact A|]. split; [exact Bk|]. split; [exact P|].
  unfold fin. rewrite u32_small in FS; [exact FS|]. unfold in16 in I1. pose proof (Z.mod_pos_bound (t_size top) 65536). lia.
Qed.

Lemma approvals_counted pf data v : hash32 (p_hash pf) -> bytes data -> zlen data < 16384 ->
  tx_parse pf true (1 :: data) = Ret (TV1 v) -> 9 <= getNumItems true (TV1 v) ->
  exists top n s, tbl_at data 0 top /\ here data (place 0 top 2) (le 4 n) /\ approvals_at data n (place 0 top 2 + 4) (fin 0 top) /\
    ST.decimal n s /\
    forall kl, tx_getItem pf true kl (1 :: data) (TV1 v) (getNumItems true (TV1 v) - 1) = Ret (mkItem (text "Approvals #") (VDirect s)).
Proof.
  intros Hh B L H N. assert (L2 : zlen data < 65535) by lia. destruct (accept_inv _ _ _ _ _ L2 H) as (Lp & o1 & o2 & its & o3 & u & PC & _ & _).
  apply content_v1 in PC. destruct PC as [_ R]. set (e := ctx_of pf true false 40 data (zlen data)) in *.
  assert (W : wf e) by (apply wf_ctx; auto; lia).
  destruct (v1_approvals e v o1 W ltac:(cbn [blen ctx_of e]; lia) R) as (top & Tt & A & K & P & ->).
  exists top, (num_approvals v), (dec (num_approvals v)). split; [exact Tt|]. split; [exact A|]. split; [exact P|]. split; [apply dec_decimal; lia|].
  pose proof (proj1 (v1_shown_all pf true 40 data v ltac:(lia) H)) as Q.
  intros kl. rewrite (tx_item_v1 _ _ _ _ _ _ 0) by lia. fold e. cbn [getNumItems] in *. set (n := numItems v) in *.
  unfold getItemTxV1. fold n. unfold bind, check, ask. replace (n - 1 <? n) with true by lia. cbn [ret]. change (expert e) with true. cbv iota.
  replace (n - 1 =? 0) with false by lia. replace (n - 1 =? 1) with false by lia. replace (n - 1 =? 2) with false by lia.
  replace (n - 1 =? 3) with false by lia. cbn [andb]. replace (n - 1 =? 4) with false by lia. replace (n - 1 =? 5) with false by lia.
  unfold pricing_mode_items. replace (n - 1 <? 6 + 2) with false by lia.
  rewrite u16_small by lia. replace (8 <=? n - 1) with true by lia. replace (n - 1 <? 8 + (n - 9)) with false by lia.
  replace (8 + (n - 9) <=? n - 1) with true by lia. reflexivity.
Qed.

(** deploys with a specified review *)
Lemma deploy_approvals pf d lines : hash32 (p_hash pf) -> SD.good_deploy (p_hash pf) d ->
  SD.review (p_hash pf) true d = Some lines -> expert_ok true (p_time pf) (SD.d_header d) ->
  exists v s, tx_parse pf true (SD.enc_tx d) = Ret v /\ ST.decimal (S.len (SD.d_approvals d)) s /\
    forall kl, tx_getItem pf true kl (SD.enc_tx d) v (getNumItems true v - 1) = Ret (mkItem (text "Approvals #") (VPaged s)).
Proof.
  intros Hh G R X. destruct (deploy_review pf true d lines Hh G R X) as (v & P & N & It).
  unfold SD.review in R. destruct (SD.session_review _ _ _) as [sl|]; [|discriminate]. injection R as <-.
  assert (exists l, SD.around true d sl = l ++ [SD.ln "Approvals #" (SD.Number (S.len (SD.d_approvals d)))]) as [l E].
  { unfold SD.around. cbv zeta. rewrite !app_assoc. eexists. reflexivity. }
  rewrite E in *. rewrite zlen_app in N. change (zlen [_]) with 1 in N.
  assert (NE : nth_error (l ++ [SD.ln "Approvals #" (SD.Number (S.len (SD.d_approvals d)))]) (List.length l) = Some (SD.ln "Approvals #" (SD.Number (S.len (SD.d_approvals d)))))
    by (rewrite nth_error_app2, Nat.sub_diag by lia; reflexivity).
  assert (exists s, ST.decimal (S.len (SD.d_approvals d)) s) as [s Ds].
  { destruct (It _ _ NE 40) as (it & _ & _ & s & Ds & _). exists s. exact Ds. }
  exists v, s. split; [exact P|]. split; [exact Ds|]. intros kl. replace (getNumItems true v - 1) with (Z.of_nat (List.length l)) by (unfold zlen in N; lia).
  destruct (It _ _ NE kl) as ([k w] & -> & K & s' & Ds' & V). cbn [ikey ival fst SD.ln] in *. subst k w. rewrite (decimal_unique _ _ _ Ds Ds'). reflexivity.
Qed.
