(** The form of arbitrary bytes accepted as a TransactionV1. *)
From Verif Require Import Base Zxlib Crypto Utils RuntimeArg Deploy DeployUI TxV1 TxV1UI Parser BaseFacts Spec SpecText SpecDeploy SpecTx SpecLayout SpecRaw SpecForm Exec ArgsFacts ReaderFacts TxFacts TxBody RangeFacts Demo BindFacts OklFacts BindCases SafeFacts TxInv RawFacts TxAccept.
Import S SX SL SR SF.

(** ** Pieces one behind the other *)
Definition lies (e : env) (o : Z) (bs : list Z) (o' : Z) : Prop := at_ e o bs /\ o' = o + zlen bs.
Lemma lies_app e o a m b o' : lies e o a m -> lies e m b o' -> lies e o (a ++ b) o'.
Proof. intros [A ->] [B ->]. split; [apply at_app; auto|]. rewrite zlen_app. lia. Qed.
Lemma lies_in e o bs o' : wf e -> lies e o bs o' -> 0 <= o /\ o <= o' <= blen e /\ in16 o'.
Proof.
  intros W [A ->]. pose proof (at_bound _ _ _ W A). pose proof (zlen_nonneg bs). pose proof (wf_max e W).
  assert (0 <= o). { apply at_here in A. destruct A as (pre & post & _ & <-). apply zlen_nonneg. }
  unfold in16. lia.
Qed.
Lemma lies_nil e o : wf e -> 0 <= o <= blen e -> lies e o [] o.
Proof. intros W I. pose proof (wf_max e W). split; [apply RawFacts.at_nil; auto; [unfold in16|]; lia|change (zlen []) with 0; lia]. Qed.
Lemma lies_u8 e o v o' : wf e -> in16 o -> readU8 e o = (Ret v, o') -> lies e o [v] o' /\ 0 <= v < 256.
Proof. intros W I H. apply readU8_inv in H; auto. destruct H as (V & A & L & ->). split; [split; [exact A|reflexivity]|exact V]. Qed.
Lemma lies_u32 e o v o' : wf e -> in16 o -> readU32 e o = (Ret v, o') -> lies e o (le 4 v) o' /\ word v.
Proof. intros W I H. apply readU32_inv in H; auto. destruct H as (V & A & L & ->). split; [split; [exact A|rewrite le_length; reflexivity]|exact V]. Qed.
Lemma lies_u64 e o v o' : wf e -> in16 o -> readU64 e o = (Ret v, o') -> lies e o (le 8 v) o' /\ 0 <= v < 2 ^ 64.
Proof. intros W I H. apply readU64_inv in H; auto. destruct H as (V & A & L & ->). split; [split; [exact A|rewrite le_length; reflexivity]|exact V]. Qed.
Lemma lies_adv n e o r o' : wf e -> 0 <= o -> o + n < 65536 -> 0 <= n -> advance n e o = (Ret r, o') ->
  o' = o + n /\ (o' <= blen e -> exists bs, lies e o bs o' /\ zlen bs = n).
Proof.
  intros W I S N H. unfold advance in H. pinv. rewrite u16_small by lia. split; [reflexivity|]. intros L.
  destruct (at_total e o n W I N L) as (bs & A & Z). exists bs. split; [split; [exact A|lia]|exact Z].
Qed.
Lemma lies_lv e o n o' : wf e -> calm e -> 0 <= o <= blen e -> read_bytes e o = (Ret n, o') -> exists bs, lies e o (lv bs) o'.
Proof.
  intros W [C N] I H. assert (I16 : in16 o) by (unfold in16; lia). destruct (bytes_inv _ _ _ _ W I16 H) as (V & A & E & L & _).
  pose proof (N o n ltac:(apply at_here; exact A) V) as Nw.
  destruct (length_leads e o n o' W I16 V A E L) as [G|(bs & Ab & Eb)]; [lia|]. exists bs. split; auto.
Qed.
Lemma lies_lvn e o n o' : wf e -> calm e -> 0 <= o <= blen e -> read_bytes e o = (Ret n, o') -> exists bs, lies e o (lv bs) o' /\ n = zlen bs.
Proof.
  intros W C I H. destruct (lies_lv _ _ _ _ W C I H) as (bs & L). exists bs. split; [exact L|].
  rewrite (read_bytes_at bs e o W (proj1 L)) in H. congruence.
Qed.
Lemma zlen_heading t : zlen (heading t) = 8 + 6 * zlen (t_offs t). Proof. apply zlen_raw_head. Qed.
Lemma lies_table e o m o' : wf e -> in16 o -> read_metadata e o = (Ret m, o') ->
  exists t, table_ok t /\ lies e o (heading t) o' /\ m = meta_of t.
Proof.
  intros W I H. destruct (metadata_inv _ _ _ _ W I H) as (t & [A B C D E F] & M & -> & _). exists t.
  split; [constructor; auto|]. split; [|exact M]. split; [apply at_here; exact A|]. rewrite zlen_heading. unfold first.
  change (S.len (t_offs t)) with (zlen (t_offs t)). lia.
Qed.
Lemma off_ok t k : table_ok t -> word (off t k).
Proof.
  intros [_ F _ _ _]. unfold off. destruct (Nat.lt_ge_cases k (List.length (t_offs t))) as [L|L].
  - rewrite Forall_forall in F. apply F, nth_In, L.
  - rewrite nth_overflow by lia. unfold word. lia.
Qed.
Lemma size_ok t : 0 <= t_size t mod 65536 < 65536. Proof. lia. Qed.

(** ** Offsets *)
Lemma more_of (os : list Z) : forall l : list Z, (forall i, (i < List.length os)%nat -> nth i l 0 = nth i os 0) -> (List.length os <= List.length l)%nat ->
  exists more, l = os ++ more.
Proof.
  induction os as [|x os IH]; intros l N L; [exists l; reflexivity|]. destruct l as [|y l]; [cbn in L; lia|].
  pose proof (N 0%nat ltac:(cbn; lia)) as E. cbn in E. subst y.
  destruct (IH l) as (more & ->); [|cbn in L; lia|exists more; reflexivity].
  intros i Li. exact (N (Datatypes.S i) ltac:(cbn; lia)).
Qed.
Lemma off_long t k : off t k <> 0 -> (k < List.length (t_offs t))%nat.
Proof. intros N. destruct (Nat.lt_ge_cases k (List.length (t_offs t))) as [L|L]; [exact L|]. unfold off in N. rewrite nth_overflow in N by lia. lia. Qed.
Lemma starts_of t fs : table_ok t -> (List.length fs <= List.length (t_offs t))%nat ->
  (forall i, (i < List.length fs)%nat -> off t i = nth i (offsets 0 fs) 0) -> starts t fs.
Proof.
  intros T L N. assert (Lo : forall fs o, List.length (offsets o fs) = List.length fs) by (clear; induction fs as [|f fs IH]; intros o; cbn; [|rewrite IH]; reflexivity).
  split; [exact T|]. apply more_of; rewrite Lo; [exact N|exact L].
Qed.
Lemma table_long t : table_ok t -> (1 <= List.length (t_offs t))%nat.
Proof. intros [_ _ _ N L]. change (S.len (t_offs t)) with (zlen (t_offs t)) in L. unfold zlen in L. lia. Qed.
Ltac each := let i := fresh "i" in let Li := fresh "Li" in
  intros i Li; cbn [List.length] in Li;
  repeat first [exfalso; lia | destruct i as [|i]; [cbn [offsets nth]; change (@S.len Z) with (@zlen Z); rewrite ?zlen_cons, ?zlen_app, ?le_length; change (@zlen Z []) with 0; cbn [Z.of_nat Pos.of_succ_nat Pos.succ]; lia |]].
Lemma heading_of e o t : tbl_at (mem e) o t -> table_ok t /\ lies e o (heading t) (first o t).
Proof.
  intros [A B C D E F]. split; [constructor; auto|]. split; [apply at_here; exact A|]. rewrite zlen_heading. unfold first.
  change (S.len (t_offs t)) with (zlen (t_offs t)). lia.
Qed.
Lemma here_lies e o bs : here (mem e) o bs -> lies e o bs (o + zlen bs).
Proof. intros H. split; [apply at_here; exact H|reflexivity]. Qed.
Lemma lies_at e o bs o' : at_ e o bs -> o' = o + zlen bs -> lies e o bs o'. Proof. intros A ->. split; [exact A|reflexivity]. Qed.

(** ** What the device keeps of a transaction *)
Definition tsize (t : tbl) : Z := 8 + 6 * zlen (t_offs t).
Definition price_no (p : price) : Z := match p with PClassic _ _ _ => 0 | PFixed _ _ => 1 | PPrepaid _ => 2 end.
Definition header_obj (a : initiator) (chain : list Z) (t : tbl) (p : price) : header_v1 :=
  mkHeaderV1 20 (zlen (init_bytes a)) (u8 (zlen chain)) (price_no p) (tsize t).
(** [o]: position of a section, after its number *)
Definition args_obj (o n : Z) (x : argument_list) : args_v1 :=
  match x with
  | ANamed l => mkArgs false (u8 (o + 9)) n (zlen l)
  | ARaw bs => mkArgs true (u8 (o + 9)) (zlen bs) 0
  end.
Definition id_obj (o : Z) (i : SD.target) : TxV1.target :=
  match i with
  | SD.ByHash _ => mkTarget TargetStoredByHash (o + 1) 0 0
  | SD.ByName n => mkTarget TargetStoredByName (o + 5) (zlen n) 0
  | SD.ByHashV _ v => mkTarget TargetStoredByPackageHash (o + 1) 0 (ver_no v)
  | SD.ByNameV n v => mkTarget TargetStoredByPackageName (o + 5) (zlen n) (ver_no v)
  end.
Definition target_obj (o : Z) (tt id : tbl) (t : xtarget) : TxV1.target :=
  match t with
  | Native => mkTarget TargetNative 0 0 0
  | XStored i _ => id_obj (o + 4 + tsize tt + 1 + tsize id) i
  | Session _ _ _ => mkTarget TargetSession 0 0 0
  end.
Definition entry_obj (x : bool) (o : Z) (t : tbl) (n : Z) (z : entry) : Z * Z * Z * Z :=
  (entry_no z, match z with Custom _ => o + 4 + tsize t + 5 | _ => 0 end, name_len z, entry_point_items x (entry_no z) n).
Lemma same_first e o a b r : at_ e o [a] -> at_ e o (b :: r) -> a = b.
Proof. intros A B. apply (at_app e o [b] r) in B. destruct B as [B _]. unfold at_ in *. change (zlen [b]) with 1 in B. change (zlen [a]) with 1 in A. congruence. Qed.

(** ** The header *)
Lemma form_init e m pm o r o' : wf e -> 0 <= o < 1000 -> payload_first m pm = o ->
  read_initiator_address m pm e o = (Ret r, o') -> o' <= blen e ->
  exists t a, lies e o (under t (initiator_fields a)) o' /\ covers t (initiator_fields a) /\ len (t_offs t) = 2 /\ form_initiator a /\ r = (20, zlen (init_bytes a)).
Proof.
  intros W I PF H L. destruct (initiator_inv _ _ _ _ _ _ W I PF H) as (t & n & T & E & Hn & Fi & -> & Er & Wh).
  destruct (Wh L) as (who & Hw & Lw & Bw). change (S.len who) with (zlen who) in Lw. destruct (heading_of _ _ _ T) as [Tk Lh].
  apply here_lies in Hw.
  assert (F20 : first o t = o + 20) by (unfold first; rewrite E; cbn; lia).
  assert (exists a, who = List.concat (initiator_fields a) /\ form_initiator a) as (a & -> & Fa).
  { destruct Bw as [-> |[(k & -> & Lk)|[(k & -> & Lk)|(h & -> & Lk)]]].
    - exists (PublicKey 0 []). split; [reflexivity|]. left. auto.
    - exists (PublicKey 1 k). split; [cbn; rewrite app_nil_r; reflexivity|]. right; left. auto.
    - exists (PublicKey 2 k). split; [cbn; rewrite app_nil_r; reflexivity|]. right; right. auto.
    - exists (AccountHash h). split; [cbn; rewrite app_nil_r; reflexivity|]. exact Lk. }
  exists t, a. split; [unfold under; replace (o + 20 + n) with (first o t + zlen (List.concat (initiator_fields a))) by lia; exact (lies_app _ _ _ _ _ _ Lh Hw)|].
  split; [|split; [rewrite E; reflexivity|split; [exact Fa|]]].
  2:{ rewrite Er. f_equal. rewrite <- Lw. cbn [initiator_fields List.concat]. rewrite app_nil_r, zlen_app. change (zlen [_]) with 1. lia. }
  split; [|change (@S.len Z) with (@zlen Z); unfold fin in Fi; lia].
  split; [exact Tk|]. exists []. rewrite E, app_nil_r. reflexivity.
Qed.
Lemma form_pricing e m pm o r o' : wf e -> in16 o -> u32 (payload_first m pm + foff pm 4) = o ->
  read_pricing_mode m pm e o = (Ret r, o') -> o' <= blen e ->
  exists t p, lies e o (under t (price_fields p)) o' /\ covers t (price_fields p) /\ form_price p /\ r = (price_no p, tsize t).
Proof.
  intros W I PF H L. destruct (pricing_inv _ _ _ _ _ _ W I PF H) as (t & n & T & O0 & O1 & Nt & Hn & Fi & -> & _ & Er & _ & Wh).
  destruct (Wh L) as (pr & Hp & Lp & Bp & Ht). change (S.len pr) with (zlen pr) in Lp. destruct (heading_of _ _ _ T) as [Tk Lh].
  apply here_lies in Hp. rewrite Lp in Hp.
  pose proof (at_bytes _ _ _ W (proj1 Hp)) as Bb.
  assert (exists p, pr = List.concat (price_fields p) /\ form_price p /\ starts t (price_fields p)) as (p & -> & Fp & Sp).
  { pose proof (off_long t 1 ltac:(lia)) as L1.
    destruct Bp as [(a & g & s & -> & La & O2 & O3)|[(g & f & -> & O2)|(h & -> & Lk)]].
    - apply bytes_cons, bytes_app1 in Bb. destruct Bb as [Ba Bg]. destruct (le8_of a Ba La) as [Ea Va].
      inversion Bg as [|? ? Vg Bg2]; subst. inversion Bg2 as [|? ? Vs _]; subst.
      exists (PClassic (value a) g s). cbn [price_fields List.concat app]. rewrite <- Ea. split; [reflexivity|].
      split; [split; [exact Va|split; assumption]|]. pose proof (off_long t 3 ltac:(lia)). rewrite Ea. apply starts_of; [exact Tk|cbn [List.length]; lia|each].
    - apply bytes_cons in Bb. inversion Bb as [|? ? Vg Bg2]; subst. inversion Bg2 as [|? ? Vs _]; subst.
      exists (PFixed g f). split; [reflexivity|]. split; [split; assumption|]. pose proof (off_long t 2 ltac:(lia)). cbn [price_fields]. apply starts_of; [exact Tk|cbn [List.length]; lia|each].
    - exists (PPrepaid h). cbn [price_fields List.concat app]. rewrite app_nil_r. split; [reflexivity|]. split; [exact Lk|]. apply starts_of; [exact Tk|cbn [List.length]; lia|each]. }
  exists t, p. split; [unfold under; exact (lies_app _ _ _ _ _ _ Lh Hp)|]. split; [|split; [exact Fp|]].
  2:{ apply at_here in Ht. destruct r as [r1 r2]. cbn [fst snd] in *. subst r2. f_equal. destruct Hp as [Hp _].
      destruct p; cbn [price_fields List.concat app] in Hp; exact (same_first _ _ _ _ _ Ht Hp). }
  split; [exact Sp|].
  change (@S.len Z) with (@zlen Z). unfold fin in Fi. lia.
Qed.

(** where a field is said to be *)
Lemma form_header e m pm o h o' : wf e -> calm e -> 0 <= o < 1000 -> payload_first m pm = o -> (forall k, word (foff pm k)) ->
  read_txV1_header m pm e o = (Ret h, o') -> o' <= blen e ->
  exists ti a time ttl chain tp p,
    lies e o (under ti (initiator_fields a) ++ le 8 time ++ le 8 ttl ++ lv chain ++ under tp (price_fields p)) o' /\
    covers ti (initiator_fields a) /\ len (t_offs ti) = 2 /\ form_initiator a /\ 0 <= time < 2 ^ 64 /\ 0 <= ttl < 2 ^ 64 /\
    covers tp (price_fields p) /\ form_price p /\ h = header_obj a chain tp p /\
    forall i, (i < 6)%nat -> foff pm i = nth i (offsets 0 [under ti (initiator_fields a); le 8 time; le 8 ttl; lv chain; under tp (price_fields p); []]) 0.
Proof.
  intros W C I PF FW H L. unfold read_txV1_header in H. rewrite PF in H. cbv zeta in H.
  bx H u0 o0 F0. bx H ia o1 IA. bx H u1 o2 F1. bx H ts o3 R1. bx H u2 o4 F2. bx H tl o5 R2. bx H u3 o6 F3. bx H cl o7 CN.
  bx H u4 o8 F4. bx H q o9 PQ. bx H u5 o10 F5. apply ret_inv in H. destruct H as [-> ->].
  apply field_inv in F0. destruct F0 as [F0 ->]. apply field_inv in F1. destruct F1 as [F1 ->]. apply field_inv in F2. destruct F2 as [F2 ->].
  apply field_inv in F3. destruct F3 as [F3 ->]. apply field_inv in F4. destruct F4 as [F4 ->]. apply field_inv in F5. destruct F5 as [F5 ->].
  pose proof (wf_max e W) as Mx.
  destruct (initiator_inv _ _ _ _ _ _ W I PF IA) as (_ & nn & _ & _ & Hn & _ & E1 & _).
  assert (I1 : in16 o1) by (unfold in16; lia). destruct (lies_u64 _ _ _ _ W I1 R1) as [L1 V1]. destruct (lies_in _ _ _ _ W L1) as (_ & B1 & I3).
  destruct (form_init _ _ _ _ _ _ W I PF IA ltac:(lia)) as (ti & a & Li & Ci & Ni & Fi & Ea).
  destruct (lies_u64 _ _ _ _ W I3 R2) as [L2 V2]. destruct (lies_in _ _ _ _ W L2) as (_ & B2 & I5).
  unfold read_chain_name, read_string in CN. bx CN c oc BY. apply ret_inv in CN. destruct CN as [-> ->].
  assert (J5 : 0 <= o5 <= blen e) by (unfold in16 in I5; lia). destruct (lies_lvn _ _ _ _ W C J5 BY) as (chain & Lc & Nc). destruct (lies_in _ _ _ _ W Lc) as (_ & B3 & I7).
  destruct (form_pricing _ _ _ _ _ _ W I7 ltac:(rewrite PF; symmetry; exact F4) PQ L) as (tp & p & Lp & Cp & Fp & Ep).
  exists ti, a, ts, tl, chain, tp, p.
  split; [exact (lies_app _ _ _ _ _ _ Li (lies_app _ _ _ _ _ _ L1 (lies_app _ _ _ _ _ _ L2 (lies_app _ _ _ _ _ _ Lc Lp))))|].
  split; [exact Ci|]. split; [exact Ni|]. split; [exact Fi|]. split; [exact V1|]. split; [exact V2|]. split; [exact Cp|]. split; [exact Fp|].
  split; [rewrite Ea, Ep, Nc; reflexivity|].
  assert (J : in16 o) by (unfold in16; lia). unfold in16 in *.
  destruct (lies_in _ _ _ _ W Li) as (_ & B0 & _). destruct (lies_in _ _ _ _ W Lp) as (_ & B4 & _).
  apply field0 in F0; [|unfold in16; lia|apply FW].
  apply field_eq in F1; [|unfold in16; lia|apply FW|lia]. apply field_eq in F2; [|unfold in16; lia|apply FW|lia].
  apply field_eq in F3; [|unfold in16; lia|apply FW|lia]. apply field_eq in F4; [|unfold in16; lia|apply FW|lia].
  apply field_eq in F5; [|unfold in16; lia|apply FW|lia].
  destruct Li as [_ Li], L1 as [_ L1], L2 as [_ L2], Lc as [_ Lc], Lp as [_ Lp]. rewrite le_length in L1, L2. cbn [Z.of_nat Pos.of_succ_nat Pos.succ] in L1, L2.
  intros i Hi. do 6 (destruct i as [|i]; [cbn [offsets nth]; change (@S.len Z) with (@zlen Z); rewrite ?le_length; cbn [Z.of_nat Pos.of_succ_nat Pos.succ]; lia|]). lia.
Qed.

(** ** The body *)
Lemma arg_form e o r o' : wf e -> calm e -> 0 <= o <= blen e -> read_arg e o = (Ret r, o') ->
  exists a, readable a /\ lies e o (raw_bytes a) o'.
Proof.
  intros W C I H. unfold read_arg, read_string, read_clvalue in H. bx H n o1 N. bx H v o2 V. bx H t o3 T. apply ret_inv in H. destruct H as [_ ->].
  destruct (lies_lv _ _ _ _ W C I N) as (nm & Ln). destruct (lies_in _ _ _ _ W Ln) as (_ & B1 & _).
  assert (J1 : 0 <= o1 <= blen e) by lia. destruct (lies_lv _ _ _ _ W C J1 V) as (vl & Lv). destruct (lies_in _ _ _ _ W Lv) as (_ & B2 & I2).
  destruct (type_inv _ _ _ _ _ W I2 T) as (ty & Ty & At & E). exists (RawArg nm vl ty). split; [exact Ty|].
  unfold raw_bytes. cbn [r_name r_val r_ty]. exact (lies_app _ _ _ _ _ _ Ln (lies_app _ _ _ _ _ _ Lv (lies_at _ _ _ _ At E))).
Qed.
Lemma args_form e k : wf e -> calm e -> forall o r o', 0 <= o <= blen e ->
  iter_loop (R := unit) k (fun _ => bind read_arg (fun _ => ret (Next tt))) tt e o = (Ret r, o') ->
  exists l, zlen l = Z.of_nat k /\ Forall readable l /\ lies e o (args_bytes l) o'.
Proof.
  intros W C. induction k as [|k IH]; intros o r o' I H; cbn [iter_loop] in H.
  - injection H as _ <-. exists []. split; [reflexivity|]. split; [constructor|]. apply lies_nil; auto.
  - bx H f o1 B. bx B u o2 S1. apply ret_inv in B. destruct B as [-> ->]. destruct (arg_form _ _ _ _ W C I S1) as (a & R & A).
    destruct (lies_in _ _ _ _ W A) as (_ & B1 & _). assert (J : 0 <= o2 <= blen e) by lia.
    destruct (IH o2 r o' J H) as (l & Z1 & F & L). exists (a :: l). split; [rewrite zlen_cons; lia|]. split; [constructor; auto|].
    change (args_bytes (a :: l)) with (raw_bytes a ++ args_bytes l). exact (lies_app _ _ _ _ _ _ A L).
Qed.
Lemma form_arguments e o a o' : wf e -> calm e -> 0 <= o <= blen e -> read_args e o = (Ret a, o') ->
  exists al x, word al /\ lies e o (le 4 al ++ argument_bytes x) o' /\ form_args x /\ a = args_obj o al x.
Proof.
  intros W C I H. assert (I0 : in16 o) by (pose proof (wf_max e W); unfold in16; lia). unfold read_args in H. bx H vl o1 R. bx H tag o2 T.
  destruct (lies_u32 _ _ _ _ W I0 R) as [L1 V1]. destruct (lies_in _ _ _ _ W L1) as (_ & B1 & I1).
  destruct (lies_u8 _ _ _ _ W I1 T) as [L2 V2]. destruct (lies_in _ _ _ _ W L2) as (_ & B2 & I2).
  exists vl. destruct (Z.eqb_spec tag 0) as [->|N0]; [|destruct (Z.eqb_spec tag 1) as [->|N1]; [|discriminate H]].
  - bx H n o3 R3. destruct (lies_u32 _ _ _ _ W I2 R3) as [L3 V3]. destruct (lies_in _ _ _ _ W L3) as (_ & B3 & I3).
    bx H oo o4 G. apply get_off_inv in G. destruct G as [-> ->]. bx H f o5 Lp. apply ret_inv in H. destruct H as [-> ->]. rewrite loop_iter in Lp.
    assert (J : 0 <= o3 <= blen e) by lia. destruct (args_form e _ W C _ _ _ J Lp) as (l & Z1 & F & L4).
    exists (ANamed l). split; [exact V1|]. split; [|split; [exact F|]].
    2:{ cbn [args_obj]. rewrite Z1, Z2Nat.id by (unfold word in V3; lia). f_equal. f_equal. destruct L1 as [_ ->], L2 as [_ ->], L3 as [_ ->]. rewrite !le_length. cbn; lia. }
    cbn [argument_bytes]. change (S.len l) with (zlen l). rewrite Z1, Z2Nat.id by (unfold word in V3; lia).
    exact (lies_app _ _ _ _ _ _ L1 (lies_app _ _ [0] _ _ _ L2 (lies_app _ _ _ _ _ _ L3 L4))).
  - bx H oo o3 G. apply get_off_inv in G. destruct G as [-> ->]. bx H n o4 B. apply ret_inv in H. destruct H as [-> ->].
    assert (J : 0 <= o2 <= blen e) by lia. destruct (lies_lvn _ _ _ _ W C J B) as (bs & L3 & Nb). exists (ARaw bs). split; [exact V1|]. split; [|split; [exact Logic.I|]].
    2:{ cbn [args_obj]. rewrite Nb. f_equal. f_equal. destruct L1 as [_ ->], L2 as [_ ->]. rewrite !le_length. cbn; lia. }
    exact (lies_app _ _ _ _ _ _ L1 (lies_app _ _ [1] _ _ _ L2 L3)).
Qed.
Lemma table_read e o m o' : wf e -> 0 <= o <= blen e -> read_metadata e o = (Ret m, o') ->
  exists t, table_ok t /\ lies e o (heading t) o' /\ m = meta_of t /\ 0 <= o' <= blen e /\ in16 o'.
Proof.
  intros W I H. pose proof (wf_max e W). destruct (lies_table e o m o' W ltac:(unfold in16; lia) H) as (t & T & L & M). exists t.
  destruct (lies_in _ _ _ _ W L) as (_ & B & I2). split; [exact T|]. split; [exact L|]. split; [exact M|]. split; [lia|exact I2].
Qed.
Lemma lies_hash e o r o' : wf e -> calm e -> 0 <= o <= blen e -> read_hash e o = (Ret r, o') ->
  o <= o' <= blen e + 32 /\ (o' <= blen e -> exists h, zlen h = 32 /\ lies e o h o').
Proof.
  intros W [C _] I H. destruct (lies_adv 32 e o r o' W ltac:(lia) ltac:(lia) ltac:(lia) H) as [-> X]. split; [lia|].
  intros L. destruct (X L) as (h & A & Z). exists h. auto.
Qed.
Lemma form_runtime e o r o' : wf e -> calm e -> 0 <= o <= blen e -> read_runtime e o = (Ret r, o') -> o' <= blen e ->
  exists t q, table_ok t /\ good_runtime q /\ lies e o (under t (runtime_fields q)) o'.
Proof.
  intros W C I H L. unfold read_runtime in H. bx H m o1 M. bx H v o2 R. destruct (table_read _ _ _ _ W I M) as (t & T & Lt & _ & B1 & I1).
  destruct (lies_u8 _ _ _ _ W I1 R) as [L2 V2]. destruct (lies_in _ _ _ _ W L2) as (_ & B2 & I2). exists t.
  destruct (Z.eqb_spec v 1) as [->|N].
  - bx H tv o3 R3. bx H s o4 R4. destruct (lies_u64 _ _ _ _ W I2 R3) as [L3 V3]. destruct (lies_in _ _ _ _ W L3) as (_ & B3 & I3).
    destruct (lies_u8 _ _ _ _ W I3 R4) as [L4 V4]. destruct (lies_in _ _ _ _ W L4) as (_ & B4 & I4).
    pose proof (lies_app _ _ _ _ _ _ Lt (lies_app _ _ [1] _ _ _ L2 L3)) as Lx. destruct (Z.eqb_spec s 1) as [->|N1].
    + assert (J4 : 0 <= o4 <= blen e) by lia. destruct (lies_hash _ _ _ _ W C J4 H) as [_ X]. destruct (X L) as (h & Zh & Lh). exists (VmV2 tv (Some h)).
      split; [exact T|]. split; [split; [exact V3|exact Zh]|]. unfold under, runtime_fields. cbn [List.concat]. rewrite app_nil_r.
      pose proof (lies_app _ _ _ _ _ _ Lx (lies_app _ _ [1] _ _ _ L4 Lh)) as Y. rewrite <- !app_assoc in Y. exact Y.
    + apply check_inv in H. destruct H as [Es ->]. apply Z.eqb_eq in Es. subst s. exists (VmV2 tv None).
      split; [exact T|]. split; [split; [exact V3|exact Logic.I]|]. unfold under, runtime_fields. cbn [List.concat]. rewrite app_nil_r.
      pose proof (lies_app _ _ _ _ _ _ Lx L4) as Y. rewrite <- !app_assoc in Y. exact Y.
  - apply check_inv in H. destruct H as [Es ->]. apply Z.eqb_eq in Es. subst v. exists VmV1. split; [exact T|]. split; [exact Logic.I|].
    unfold under, runtime_fields. cbn [List.concat]. rewrite app_nil_r. exact (lies_app _ _ _ _ _ _ Lt L2).
Qed.
Lemma form_version e o v o' : wf e -> 0 <= o <= blen e -> read_entity_version e o = (Ret v, o') ->
  exists w, SD.good_ver w /\ lies e o (SD.enc_ver w) o' /\ v = ver_no w.
Proof.
  intros W I H. assert (I0 : in16 o) by (pose proof (wf_max e W); unfold in16; lia). unfold read_entity_version, read_bool in H.
  bx H t o1 B. bx B b o2 R. bx B u o3 K. apply ret_inv in B. destruct B as [-> ->]. apply check_inv in K. destruct K as [K ->].
  destruct (lies_u8 _ _ _ _ W I0 R) as [L1 V1]. destruct (lies_in _ _ _ _ W L1) as (_ & B1 & I1).
  destruct (Z.eqb_spec b 1) as [->|N].
  - destruct (lies_u32 _ _ _ _ W I1 H) as [L2 V2]. exists (Some v). split; [exact V2|]. split; [exact (lies_app _ _ [1] _ _ _ L1 L2)|reflexivity].
  - apply ret_inv in H. destruct H as [-> ->]. assert (b = 0) as -> by lia. exists None. split; [exact Logic.I|split; [exact L1|reflexivity]].
Qed.
Lemma form_stored e o r o' : wf e -> calm e -> 0 <= o <= blen e -> read_stored e o = (Ret r, o') -> o' <= blen e ->
  exists i, form_id i /\ lies e o (List.concat (id_fields i)) o' /\ r = (id_obj o i, tgt_items (expert e) (XStored i VmV1)).
Proof.
  intros W C I H L. assert (I0 : in16 o) by (pose proof (wf_max e W); unfold in16; lia). unfold read_stored, read_entity_address, read_string in H.
  bx H tag o1 R. bx H x o2 X. bx H oo o3 G. apply get_off_inv in G. destruct G as [-> ->]. assert (x = expert e /\ o2 = o1) as [-> ->] by (clear - X; pinv; auto).
  destruct (lies_u8 _ _ _ _ W I0 R) as [L1 V1]. pose proof (proj2 L1) as E1. change (zlen [tag]) with 1 in E1. destruct (lies_in _ _ _ _ W L1) as (_ & B1 & I1). assert (J1 : 0 <= o1 <= blen e) by lia.
  destruct (Z.eqb_spec tag 0) as [->|N0]; [|destruct (Z.eqb_spec tag 1) as [->|N1]; [|destruct (Z.eqb_spec tag 2) as [->|N2]; [|destruct (Z.eqb_spec tag 3) as [->|N3]; [|discriminate H]]]].
  - bx H u o4 Q. apply ret_inv in H. destruct H as [-> ->]. destruct (lies_hash _ _ _ _ W C J1 Q) as [_ Y]. destruct (Y L) as (h & Zh & Lh).
    exists (SD.ByHash h). split; [exact Zh|]. cbn [id_fields List.concat]. rewrite app_nil_r. split; [exact (lies_app _ _ _ _ _ _ L1 Lh)|].
    cbn [id_obj tgt_items]. rewrite E1. reflexivity.
  - bx H n o4 Q. apply ret_inv in H. destruct H as [-> ->]. destruct (lies_lvn _ _ _ _ W C J1 Q) as (nm & Ln & Nn).
    exists (SD.ByName nm). split; [exact Logic.I|]. cbn [id_fields List.concat]. rewrite app_nil_r. split; [exact (lies_app _ _ _ _ _ _ L1 Ln)|].
    cbn [id_obj tgt_items]. rewrite E1, Nn. f_equal. f_equal. lia.
  - bx H u o4 Q. bx H v o5 V. apply ret_inv in H. destruct H as [-> ->]. destruct (lies_hash _ _ _ _ W C J1 Q) as [Bq Y].
    assert (L4 : o4 <= blen e).
    { clear - V W Bq J1 C. destruct C as [C _]. unfold read_entity_version, read_bool in V. bx V t q1 B. bx B b q2 R. apply readU8_inv in R; [|auto|unfold in16; lia]. lia. }
    destruct (Y L4) as (h & Zh & Lh). assert (J4 : 0 <= o4 <= blen e) by lia. destruct (form_version _ _ _ _ W J4 V) as (w & Gw & Lw & Nw).
    exists (SD.ByHashV h w). split; [split; [exact Zh|exact Gw]|]. cbn [id_fields List.concat]. rewrite app_nil_r. split; [exact (lies_app _ _ _ _ _ _ L1 (lies_app _ _ _ _ _ _ Lh Lw))|].
    cbn [id_obj tgt_items]. unfold ver_item. rewrite E1, Nw. reflexivity.
  - bx H n o4 Q. bx H v o5 V. apply ret_inv in H. destruct H as [-> ->]. destruct (lies_lvn _ _ _ _ W C J1 Q) as (nm & Ln & Nn).
    destruct (lies_in _ _ _ _ W Ln) as (_ & B4 & _). assert (J4 : 0 <= o4 <= blen e) by lia. destruct (form_version _ _ _ _ W J4 V) as (w & Gw & Lw & Nw).
    exists (SD.ByNameV nm w). split; [exact Gw|]. cbn [id_fields List.concat]. rewrite app_nil_r. split; [exact (lies_app _ _ _ _ _ _ L1 (lies_app _ _ _ _ _ _ Ln Lw))|].
    cbn [id_obj tgt_items]. unfold ver_item. rewrite E1, Nn, Nw. f_equal. f_equal. lia.
Qed.
Lemma first_of t : table_ok t -> off t 0 = 0 -> starts t [[0]].
Proof. intros T E. pose proof (table_long t T). apply starts_of; [exact T|cbn [List.length]; lia|each]. Qed.
Lemma starts_len t fs fs' : List.length fs = List.length fs' -> (forall o, offsets o fs = offsets o fs') -> starts t fs -> starts t fs'.
Proof. intros _ E [T (m & X)]. split; [exact T|]. exists m. rewrite <- E. exact X. Qed.
Lemma second_of t a b : table_ok t -> zlen a = 1 -> off t 0 = 0 -> off t 1 = 1 -> starts t [a; b].
Proof.
  intros T La E F. pose proof (off_long t 1 ltac:(lia)). apply starts_of; [exact T|cbn [List.length]; lia|].
  intros i Li. cbn [List.length] in Li. destruct i as [|[|i]]; [exact E| |lia]. cbn [offsets nth]. change (S.len a) with (zlen a). lia.
Qed.
Lemma form_tgt e o r o' : wf e -> calm e -> 0 <= o <= blen e -> read_target e o = (Ret r, o') -> o' <= blen e ->
  exists tl tt id rt x, word tl /\ form_target x /\
    (kind (ttype (fst r)) = 1 <-> exists i q, x = XStored i q) /\ r = (target_obj o tt id x, tgt_items (expert e) x) /\
    match x with XStored _ _ => table_ok id | _ => True end /\ match x with Native => True | _ => table_ok rt end /\
    forall k, n_id k = id -> n_runtime k = rt ->
      lies e o (le 4 tl ++ under tt (target_fields k x)) o' /\
      match x with Native => covers tt (target_fields k Native) | t => starts tt (firstn 2 (target_fields k t)) end.
Proof.
  intros W C I H L. assert (I0 : in16 o) by (pose proof (wf_max e W); unfold in16; lia). pose proof (wf_max e W) as Mx. unfold read_target in H.
  bx H tl o1 R. bx H tm o2 M. bx H base o3 G. bx H u o4 F0. bx H tag o5 T.
  destruct (lies_u32 _ _ _ _ W I0 R) as [L1 V1]. destruct (lies_in _ _ _ _ W L1) as (_ & B1 & I1). assert (J1 : 0 <= o1 <= blen e) by lia.
  destruct (table_read _ _ _ _ W J1 M) as (t & Tk & Lt & -> & B2 & I2). apply get_off_inv in G. destruct G as [-> ->].
  cbn [meta_of fields_size] in *. rewrite !foff_off in *. apply field_inv in F0. destruct F0 as [F0 ->].
  apply field0 in F0; [|exact I2|apply off_ok, Tk].
  destruct (lies_u8 _ _ _ _ W I2 T) as [L3 V3]. destruct (lies_in _ _ _ _ W L3) as (_ & B3 & I3). assert (J3 : 0 <= o5 <= blen e) by lia.
  assert (E5 : o5 = o2 + 1) by (destruct L3 as [_ ->]; reflexivity).
  exists tl, t. destruct (Z.eqb_spec tag 0) as [->|N0]; [|destruct (Z.eqb_spec tag 1) as [->|N1]; [|destruct (Z.eqb_spec tag 2) as [->|N2]; [|discriminate H]]].
  - bx H u2 o6 F1. apply field_inv in F1. destruct F1 as [F1 ->]. apply ret_inv in H. destruct H as [-> ->].
    pose proof (size_ok t). rewrite u32_small in F1 by (unfold in16 in *; lia).
    exists t, t, Native. split; [exact V1|]. split; [exact Logic.I|]. split; [split; [discriminate|intros (? & ? & ?); discriminate]|]. split; [reflexivity|]. split; [exact Logic.I|]. split; [exact Logic.I|].
    intros k _ _. unfold under, target_fields. cbn [List.concat]. rewrite app_nil_r. split; [exact (lies_app _ _ _ _ _ _ L1 (lies_app _ _ _ _ _ _ Lt L3))|].
    split; [apply first_of; auto|]. cbn. lia.
  - bx H u2 o6 F1. bx H im o7 M2. bx H st o8 Q. bx H rt o9 RT. apply ret_inv in H. destruct H as [-> ->].
    apply field_inv in F1. destruct F1 as [F1 ->]. apply field_eq in F1; [|exact I2|apply off_ok, Tk|lia].
    destruct (table_read _ _ _ _ W J3 M2) as (ti & Ti & Li & _ & B7 & I7).
    pose proof (stored_type _ _ _ _ Q) as ST.
    assert (L8 : o8 <= blen e).
    { clear - RT W C Q B7. pose proof (fw_stored e o7 _ _ W C ltac:(cbn [slack]; lia) Q) as X. cbn [slack] in X. destruct C as [C _].
      unfold read_runtime, read_metadata in RT. bx RT m q1 M. bx M n q2 N. bx M u q3 K. bx M s q4 G. bx M nf q5 R.
      assert (q4 = o8) as -> by (clear - N K G; pinv; auto).
      apply readU32_inv in R; [|auto|unfold in16; lia]. lia. }
    destruct (form_stored _ _ _ _ W C B7 Q L8) as (i & Fi & Ls & Es). destruct (lies_in _ _ _ _ W Ls) as (_ & B8 & _). assert (J8 : 0 <= o8 <= blen e) by lia.
    destruct (form_runtime _ _ _ _ W C J8 RT L) as (tr & q & Tr & Gq & Lr).
    exists ti, tr, (XStored i q). split; [exact V1|]. split; [split; [exact Fi|exact Gq]|].
    split; [split; [intros _; exists i, q; reflexivity|intros _]|].
    { unfold kind, TargetNative, TargetSession. destruct (Z.eqb_spec (ttype (fst st)) 0); [lia|]. destruct (Z.eqb_spec (ttype (fst st)) 5); [lia|reflexivity]. }
    split.
    { rewrite Es. destruct L1 as [_ El], Lt as [_ Et], Li as [_ Ei]. rewrite le_length in El. rewrite zlen_heading in Et, Ei. cbn [Z.of_nat Pos.of_succ_nat Pos.succ] in El.
      unfold target_obj. replace (o + 4 + tsize t + 1 + tsize ti) with o7 by (unfold tsize; lia). destruct i; reflexivity. }
    split; [exact Ti|]. split; [exact Tr|]. intros k Ki Kr. unfold under at 1. unfold target_fields. cbn [List.concat firstn]. rewrite Ki, Kr, app_nil_r.
    split; [exact (lies_app _ _ _ _ _ _ L1 (lies_app _ _ _ _ _ _ Lt (lies_app _ _ _ _ _ _ L3 (lies_app _ _ _ _ _ _ (lies_app _ _ _ _ _ _ Li Ls) Lr))))|].
    apply second_of; [exact Tk|reflexivity|exact F0|lia].
  - bx H u2 o6 F1. bx H b o7 B. bx H rt o8 RT. bx H ln o9 BY. apply ret_inv in H. destruct H as [-> ->].
    apply field_inv in F1. destruct F1 as [F1 ->]. apply field_eq in F1; [|exact I2|apply off_ok, Tk|lia].
    unfold read_bool in B. bx B b' q1 Rb. bx B u3 q2 K. apply ret_inv in B. destruct B as [-> ->]. apply check_inv in K. destruct K as [K ->].
    destruct (lies_u8 _ _ _ _ W I3 Rb) as [L6 V6]. destruct (lies_in _ _ _ _ W L6) as (_ & B6 & I6). assert (J6 : 0 <= q1 <= blen e) by lia.
    assert (L8 : o8 <= blen e).
    { clear - BY W C RT J6. pose proof (fw_runtime e q1 _ _ W C ltac:(cbn [slack]; lia) RT) as X. cbn [slack] in X. destruct C as [C _].
      unfold read_bytes in BY. bx BY n q2 R. apply readU32_inv in R; [|auto|unfold in16; lia]. lia. }
    destruct (form_runtime _ _ _ _ W C J6 RT L8) as (tr & q & Tr & Gq & Lr). destruct (lies_in _ _ _ _ W Lr) as (_ & B8 & _). assert (J8 : 0 <= o8 <= blen e) by lia.
    destruct (lies_lv _ _ _ _ W C J8 BY) as (code & Lc).
    exists t, tr, (Session (b' =? 1) q code). split; [exact V1|]. split; [exact Gq|]. split; [split; [discriminate|intros (? & ? & ?); discriminate]|].
    split; [reflexivity|]. split; [exact Logic.I|]. split; [exact Tr|]. intros k _ Kr. unfold under at 1. unfold target_fields. cbn [List.concat firstn]. rewrite Kr, app_nil_r.
    assert (Eb : bool_byte (b' =? 1) = b') by (unfold bool_byte; destruct (Z.eqb_spec b' 1); lia). rewrite Eb.
    split; [exact (lies_app _ _ _ _ _ _ L1 (lies_app _ _ _ _ _ _ Lt (lies_app _ _ _ _ _ _ L3 (lies_app _ _ _ _ _ _ L6 (lies_app _ _ _ _ _ _ Lr Lc)))))|].
    apply second_of; [exact Tk|reflexivity|exact F0|lia].
Qed.
Lemma op_of tag : 2 <= tag <= 12 -> exists n, native_tag n = tag.
Proof.
  intros H. assert (tag = 2 \/ tag = 3 \/ tag = 4 \/ tag = 5 \/ tag = 6 \/ tag = 7 \/ tag = 8 \/ tag = 9 \/ tag = 10 \/ tag = 11 \/ tag = 12) as X by lia.
  destruct X as [-> |[-> |[-> |[-> |[-> |[-> |[-> |[-> |[-> |[-> | ->]]]]]]]]]];
    [exists NTransfer|exists NAddBid|exists NWithdrawBid|exists NDelegate|exists NUndelegate|exists NRedelegate|exists NActivateBid|exists NChangeKey|exists NAddReservations|exists NCancelReservations|exists NBurn]; reflexivity.
Qed.
Lemma covers_one t v : covers t [[0]] -> covers t [[v]].
Proof. intros [[T (m & E)] S]. split; [split; [exact T|exists m; exact E]|exact S]. Qed.
Lemma form_ep a t0 e o r o' : wf e -> calm e -> 0 <= o <= blen e -> read_entry_point a t0 e o = (Ret r, o') ->
  exists el et x, word el /\ lies e o (le 4 el ++ under et (entry_fields x)) o' /\ covers et (entry_fields x) /\
    (kind t0 = 1 -> exists n, x = Custom n) /\ r = entry_obj (expert e) o et (num_runtime_args a) x.
Proof.
  intros W C I H. assert (I0 : in16 o) by (pose proof (wf_max e W); unfold in16; lia). pose proof (wf_max e W) as Mx. unfold read_entry_point in H.
  bx H l o1 R. bx H tm o2 M. bx H base o3 G. bx H u o4 F0. bx H tag o5 T. bx H u1 o6 K. bx H pl o7 P. bx H u2 o8 F1. bx H x o9 X. bx H u3 o10 Q.
  apply ret_inv in H. destruct H as [-> ->].
  destruct (lies_u32 _ _ _ _ W I0 R) as [L1 V1]. destruct (lies_in _ _ _ _ W L1) as (_ & B1 & I1). assert (J1 : 0 <= o1 <= blen e) by lia.
  destruct (table_read _ _ _ _ W J1 M) as (t & Tk & Lt & -> & B2 & I2). apply get_off_inv in G. destruct G as [-> ->].
  cbn [meta_of fields_size] in *. rewrite !foff_off in *. apply field_inv in F0. destruct F0 as [F0 ->].
  apply field0 in F0; [|exact I2|apply off_ok, Tk].
  destruct (lies_u8 _ _ _ _ W I2 T) as [L3 V3]. destruct (lies_in _ _ _ _ W L3) as (_ & B3 & I3). assert (J3 : 0 <= o5 <= blen e) by lia.
  assert (E5 : o5 = o2 + 1) by (destruct L3 as [_ ->]; reflexivity).
  apply check_inv in K. destruct K as [K ->]. unfold EntryPointBurn in K. apply field_inv in F1. destruct F1 as [F1 ->].
  pose proof (size_ok t) as Sz. assert (x = expert e /\ o9 = o7) as [-> ->] by (clear - X; pinv; auto).
  assert (E2 : o2 = o + 4 + tsize t) by (destruct L1 as [_ El], Lt as [_ Et]; rewrite le_length in El; rewrite zlen_heading in Et; cbn [Z.of_nat Pos.of_succ_nat Pos.succ] in El; unfold tsize; lia).
  assert (KT : in16 o7 -> o10 = o7 /\ (kind t0 = 1 -> tag = 1)).
  { intros I7. apply sanity_inv in Q; [|exact I7]. destruct Q as [-> Q]. split; [reflexivity|]. unfold kind, EntryPointCustom in *.
    destruct (Z.eqb_spec t0 TargetNative), (Z.eqb_spec t0 TargetSession); try discriminate; lia. }
  rewrite u32_small in F1 by (unfold in16 in *; lia).
  exists l, t. unfold EntryPointCustom in P. destruct (Z.eqb_spec tag 1) as [->|N].
  - bx P u5 q1 G1. bx P oo q2 G2. bx P nl q3 B. apply ret_inv in P. destruct P as [-> ->].
    apply field_inv in G1. destruct G1 as [G1 ->]. apply field_eq in G1; [|exact I2|apply off_ok, Tk|lia].
    apply get_off_inv in G2. destruct G2 as [-> ->]. destruct (lies_lvn _ _ _ _ W C J3 B) as (nm & Ln & Nn).
    destruct (lies_in _ _ _ _ W Ln) as (_ & _ & I7). destruct (KT I7) as [-> _].
    exists (Custom nm). split; [exact V1|]. unfold under, entry_fields. cbn [List.concat]. rewrite app_nil_r.
    split; [exact (lies_app _ _ _ _ _ _ L1 (lies_app _ _ _ _ _ _ Lt (lies_app _ _ _ _ _ _ L3 Ln)))|].
    split; [|split; [intros _; exists nm; reflexivity|]].
    2:{ unfold entry_obj. cbn [entry_no name_len fst snd]. rewrite Nn. replace (o + 4 + tsize t + 5) with (o5 + 4) by lia. reflexivity. }
    split; [apply second_of; [exact Tk|reflexivity|exact F0|lia]|].
    destruct Ln as [_ En]. cbn [List.concat]. rewrite app_nil_r. change (S.len ([1] ++ lv nm)) with (zlen ([1] ++ lv nm)). rewrite zlen_app. change (zlen [1]) with 1. lia.
  - apply ret_inv in P. destruct P as [-> ->]. destruct (KT I3) as [-> KE].
    assert (exists y, entry_fields y = [[tag]] /\ entry_no y = tag /\ forall x q tb n0, entry_obj x q tb n0 y = (tag, 0, 0, entry_point_items x tag n0)) as (y & Ey & Ety & Eoy).
    { destruct (Z.eq_dec tag 0) as [->|N0]; [exists Call; repeat split; reflexivity|]. destruct (op_of tag) as (n & En); [lia|]. exists (Op n). unfold entry_obj. cbn. rewrite En. repeat split; reflexivity. }
    exists y. rewrite Ey. split; [exact V1|]. unfold under. cbn [List.concat]. rewrite app_nil_r.
    split; [exact (lies_app _ _ _ _ _ _ L1 (lies_app _ _ _ _ _ _ Lt L3))|]. split; [apply covers_one; split; [apply first_of; auto|cbn; lia]|].
    split; [intros Kd; specialize (KE Kd); lia|]. rewrite Eoy. reflexivity.
Qed.
Lemma form_sched e o r o' : wf e -> calm e -> 0 <= o <= blen e -> read_scheduling e o = (Ret r, o') ->
  exists sl st, word sl /\ lies e o (le 4 sl ++ under st [[0]]) o' /\ covers st [[0]].
Proof.
  intros W C I H. assert (I0 : in16 o) by (pose proof (wf_max e W); unfold in16; lia). pose proof (wf_max e W) as Mx. unfold read_scheduling in H.
  bx H l o1 R. bx H tm o2 M. bx H base o3 G. bx H u o4 F0. bx H tag o5 T. bx H u1 o6 K.
  destruct (lies_u32 _ _ _ _ W I0 R) as [L1 V1]. destruct (lies_in _ _ _ _ W L1) as (_ & B1 & I1). assert (J1 : 0 <= o1 <= blen e) by lia.
  destruct (table_read _ _ _ _ W J1 M) as (t & Tk & Lt & -> & B2 & I2). apply get_off_inv in G. destruct G as [-> ->].
  cbn [meta_of fields_size] in *. rewrite !foff_off in *. apply field_inv in F0. destruct F0 as [F0 ->].
  apply field0 in F0; [|exact I2|apply off_ok, Tk].
  destruct (lies_u8 _ _ _ _ W I2 T) as [L3 V3]. assert (E5 : o5 = o2 + 1) by (destruct L3 as [_ ->]; reflexivity).
  apply check_inv in K. destruct K as [K ->]. apply Z.eqb_eq in K. subst tag. apply field_inv in H. destruct H as [F1 ->].
  pose proof (size_ok t) as Sz. rewrite u32_small in F1 by (unfold in16 in *; lia).
  exists l, t. split; [exact V1|]. unfold under. cbn [List.concat]. rewrite app_nil_r. split; [exact (lies_app _ _ _ _ _ _ L1 (lies_app _ _ _ _ _ _ Lt L3))|].
  split; [apply first_of; auto|cbn; lia].
Qed.

(** ** The body *)
Definition body_bytes (k : numbers) (x : argument_list) (y : xtarget) (z : entry) : list Z :=
  le 4 4 ++ section 0 (n_args k) (argument_bytes x)
  ++ section 1 (fst (n_target k)) (under (snd (n_target k)) (target_fields k y))
  ++ section 2 (fst (n_entry k)) (under (snd (n_entry k)) (entry_fields z))
  ++ section 3 (fst (n_sched k)) (under (snd (n_sched k)) [[0]]).
Record body_numbers (k : numbers) (y : xtarget) (z : entry) : Prop := {
  bn_args : word (n_args k); bn_tlen : word (fst (n_target k)); bn_elen : word (fst (n_entry k)); bn_slen : word (fst (n_sched k));
  bn_target : match y with
              | Native => covers (snd (n_target k)) (target_fields k Native)
              | t => starts (snd (n_target k)) (firstn 2 (target_fields k t))
              end;
  bn_id : match y with XStored _ _ => table_ok (n_id k) | _ => True end;
  bn_runtime : match y with Native => True | _ => table_ok (n_runtime k) end;
  bn_entry : covers (snd (n_entry k)) (entry_fields z);
  bn_sched : covers (snd (n_sched k)) [[0]] }.
Lemma lies_key k e o r o' : wf e -> 0 <= o < 65536 -> read_field_key k e o = (Ret r, o') -> lies e o (le 2 k) o' /\ 0 <= o <= blen e /\ 0 <= o' <= blen e.
Proof.
  intros W I H. destruct (key_inv _ _ _ _ _ W I H) as (A & E & L & _).
  split; [split; [exact A|rewrite le_length; exact E]|lia].
Qed.
Definition nargs (x : argument_list) : Z := match x with ANamed l => zlen l | ARaw _ => 0 end.
Definition target_at (o : Z) (x : argument_list) : Z := o + 12 + zlen (argument_bytes x).
Definition entry_at (o : Z) (k : numbers) (x : argument_list) (y : xtarget) : Z :=
  target_at o x + 6 + zlen (under (snd (n_target k)) (target_fields k y)).
Definition body_obj (b : bool) (o : Z) (k : numbers) (x : argument_list) (y : xtarget) (z : entry) : args_v1 * (TxV1.target * Z) * (Z * Z * Z * Z) :=
  (args_obj (o + 6) (n_args k) x, (target_obj (target_at o x) (snd (n_target k)) (n_id k) y, tgt_items b y),
   entry_obj b (entry_at o k x y) (snd (n_entry k)) (nargs x) z).
Lemma form_body e o r o' : wf e -> calm e -> 0 <= o <= blen e -> read_txV1_body e o = (Ret r, o') ->
  exists k x y z, lies e o (body_bytes k x y z) o' /\ body_numbers k y z /\ form_args x /\ form_target y /\ callable z y = true /\
    r = body_obj (expert e) o k x y z.
Proof.
  intros W C I H. assert (I0 : in16 o) by (pose proof (wf_max e W); unfold in16; lia). unfold read_txV1_body in H.
  bx H n o1 R. bx H u1 o2 K. bx H u2 o3 K0. bx H a' o4 AR. bx H u3 o5 K1. bx H t' o6 TG. bx H u4 o7 K2. bx H ep' o8 EP. bx H u5 o9 K3. bx H u6 o10 SC.
  apply ret_inv in H. destruct H as [-> ->]. apply check_inv in K. destruct K as [K ->]. apply Z.eqb_eq in K. subst n.
  pose proof (wf_max e W) as Mx.
  destruct (lies_u32 _ _ _ _ W I0 R) as [L0 _]. destruct (lies_in _ _ _ _ W L0) as (_ & B1 & I1).
  destruct (lies_key _ _ _ _ _ W I1 K0) as (La & _ & J3).
  destruct (form_arguments _ _ _ _ W C J3 AR) as (al & x & Wa & Lx & Fx & Ea). destruct (lies_in _ _ _ _ W Lx) as (_ & B4 & I4).
  destruct (lies_key _ _ _ _ _ W I4 K1) as (Lb & _ & J5).
  assert (J6 : 0 <= o6 < 65536).
  { assert (J5' : 0 <= o5 <= blen e + slack false) by (cbn [slack]; lia). pose proof (fw_target _ _ _ _ W C J5' TG) as F. cbn [slack] in F. destruct C as [C _]. lia. }
  destruct (lies_key _ _ _ _ _ W J6 K2) as (Lc & J6' & J7).
  destruct (form_tgt _ _ _ _ W C J5 TG (proj2 J6')) as (tl & tt0 & id & rt & y & Wt & Fy & Ky & Et & Id & Rt & Y).
  destruct (form_ep _ _ _ _ _ _ W C J7 EP) as (el & et & z & We & Lz & Cz & Kz & Ez). destruct (lies_in _ _ _ _ W Lz) as (_ & B8 & I8).
  destruct (lies_key _ _ _ _ _ W I8 K3) as (Ld & _ & J9).
  destruct (form_sched _ _ _ _ W C J9 SC) as (sl & st & Ws & Ls & Cs).
  exists (Numbers tt0 tt0 tt0 tt0 al (tl, tt0) id rt (el, et) (sl, st)), x, y, z.
  destruct (Y (Numbers tt0 tt0 tt0 tt0 al (tl, tt0) id rt (el, et) (sl, st)) eq_refl eq_refl) as [Ly Cy].
  split; [|split; [|split; [exact Fx|split; [exact Fy|split]]]].
  - unfold body_bytes, section. cbn [n_args n_target n_entry n_sched fst snd].
    apply (lies_app _ _ _ _ _ _ L0).
    apply (lies_app _ _ _ _ _ _ (lies_app _ _ _ _ _ _ La Lx)).
    apply (lies_app _ _ _ _ _ _ (lies_app _ _ _ _ _ _ Lb Ly)).
    apply (lies_app _ _ _ _ _ _ (lies_app _ _ _ _ _ _ Lc Lz)).
    apply (lies_app _ _ _ _ _ _ Ld Ls).
  - constructor; cbn [n_args n_target n_entry n_sched n_id n_runtime fst snd]; auto.
  - destruct y as [|i q|]; [destruct z; reflexivity| |destruct z; reflexivity].
    destruct (Kz (proj2 Ky (ex_intro _ i (ex_intro _ q eq_refl)))) as (n & ->). reflexivity.
  - unfold body_obj. cbn [n_args n_target n_id n_entry fst snd].
    destruct L0 as [_ E0], La as [_ E1], Lx as [_ E2], Lb as [_ E3], Ly as [_ E4], Lc as [_ E5].
    rewrite zlen_app in E2, E4. rewrite !le_length in *. cbn [Z.of_nat Pos.of_succ_nat Pos.succ n_target fst snd] in *.
    assert (o5 = target_at o x) as <- by (unfold target_at; lia).
    match goal with |- context [entry_at o ?k0 x y] => set (k := k0) in * end.
    assert (o7 = entry_at o k x y) as <- by (unfold entry_at, target_at; change (snd (n_target k)) with tt0; lia).
    replace (o + 6) with o3 by lia. rewrite Ez, Et, Ea. f_equal. f_equal. destruct x; reflexivity.
Qed.

(** ** The approvals *)
(** The bytes [bs] from [o] on, of which the last [cut] may lie behind the
    end. *)
Definition mostly (Q : list Z -> Prop) (e : env) (o : Z) (bs : list Z) (o' : Z) : Prop :=
  o' = o + zlen bs /\ exists bs1 cut, bs = bs1 ++ cut /\ at_ e o bs1 /\ Q cut /\ (cut = [] \/ o + zlen bs1 = blen e).
Lemma mostly_lies (Q : list Z -> Prop) e o bs o' : Q [] -> lies e o bs o' -> mostly Q e o bs o'.
Proof. intros Q0 [A E]. split; [exact E|]. exists bs, []. rewrite app_nil_r. split; [reflexivity|]. split; [exact A|]. split; [exact Q0|left; reflexivity]. Qed.
Lemma lies_mostly Q e o a m b o' : lies e o a m -> mostly Q e m b o' -> mostly Q e o (a ++ b) o'.
Proof.
  intros [A ->] (-> & bs1 & cut & -> & A1 & Z & D). split; [rewrite !zlen_app; lia|]. exists (a ++ bs1), cut.
  rewrite app_assoc. split; [reflexivity|]. split; [apply at_app; auto|]. split; [exact Z|]. rewrite zlen_app. destruct D as [D|D]; [left; exact D|right; lia].
Qed.
Lemma mostly_weak (Q R : list Z -> Prop) e o bs o' : (forall c, Q c -> R c) -> mostly Q e o bs o' -> mostly R e o bs o'.
Proof. intros I (E & b & c & F & A & q & D). split; [exact E|]. exists b, c. auto. Qed.
Lemma form_one e o r1 o1 r2 o2 : wf e -> calm e -> 0 <= o <= blen e -> read_public_key e o = (Ret r1, o1) -> read_signature e o1 = (Ret r2, o2) ->
  exists a, form_approved a /\ o <= o2 <= blen e + 64 /\ mostly (fun c => exists s, p_sig a = s ++ c) e o (approved_bytes a) o2 /\ (o2 <= blen e -> lies e o (approved_bytes a) o2).
Proof.
  intros W [C NL] I K H. pose proof (wf_max e W) as Mx. assert (I0 : in16 o) by (unfold in16; lia).
  destruct (public_key_inv _ _ _ _ W I0 K) as (t & At & Lt & Ht & E1).
  set (n := if t =? 0 then 0 else if t =? 1 then 32 else 33).
  assert (En : (if t =? 0 then 1 else if t =? 1 then 33 else 34) = 1 + n) by (unfold n; destruct (t =? 0); [reflexivity|]; destruct (t =? 1); reflexivity).
  assert (Bn : 0 <= n <= 33) by (unfold n; destruct (t =? 0); [lia|]; destruct (t =? 1); lia).
  rewrite En in E1. rewrite u16_small in E1 by lia.
  assert (I1 : in16 o1) by (unfold in16; lia).
  unfold read_signature in H. bx H s q R. bx H u q1 S. apply check_inv in S. destruct S as [S ->].
  destruct (lies_u8 _ _ _ _ W I1 R) as [L2 V2]. destruct (lies_in _ _ _ _ W L2) as (_ & B2 & I2).
  destruct (at_total e (o + 1) n W ltac:(lia) ltac:(lia) ltac:(lia)) as (k & Ak & Lk).
  assert (Eq : q = o1 + 1) by exact (proj2 L2).
  assert (Q0 : 0 <= q) by lia. assert (Q1 : q + 64 < 65536) by lia.
  destruct (lies_adv 64 _ _ _ _ W Q0 Q1 ltac:(lia) H) as [E2 Y].
  assert (L1 : lies e o ([t] ++ k) o1).
  { apply (lies_app _ _ [t] (o + 1)); [split; [exact At|reflexivity]|split; [exact Ak|lia]]. }
  assert (AK : any_key t k).
  { unfold any_key. change (@S.len Z) with (@zlen Z). destruct Ht as [-> |[-> | ->]]; cbn in Lk; auto.
    left. split; [reflexivity|]. destruct k as [|b k]; [reflexivity|]. pose proof (zlen_nonneg k). rewrite zlen_cons in Lk. lia. }
  assert (SG : s = 1 \/ s = 2) by lia.
  assert (EA : forall sg, approved_bytes (Approved t k s sg) = ([t] ++ k) ++ [s] ++ sg) by (intros sg; unfold approved_bytes; cbn [p_alg p_key p_sigalg p_sig]; rewrite <- !app_assoc; reflexivity).
  destruct (Z_le_gt_dec o2 (blen e)) as [Le|Gt].
  - destruct (Y Le) as (sg & Lg & Zg). exists (Approved t k s sg). split; [split; [exact AK|split; [exact SG|exact Zg]]|].
    assert (X : lies e o (approved_bytes (Approved t k s sg)) o2).
    { rewrite EA. apply (lies_app _ _ _ _ _ _ L1). apply (lies_app _ _ _ _ _ _ L2 Lg). }
    split; [lia|]. split; [apply mostly_lies; [exists sg; rewrite app_nil_r; reflexivity|exact X]|auto].
  - destruct (at_total e q (blen e - q) W ltac:(lia) ltac:(lia) ltac:(lia)) as (s1 & A1 & Z1).
    set (cut := List.repeat 0 (Z.to_nat (64 - zlen s1))).
    assert (Zc : zlen cut = 64 - zlen s1) by (unfold cut, zlen; rewrite repeat_length; fold (zlen s1); lia).
    exists (Approved t k s (s1 ++ cut)).
    split; [split; [exact AK|split; [exact SG|cbn [p_sig]; change (@S.len Z) with (@zlen Z); rewrite zlen_app; lia]]|].
    split; [lia|]. split; [|lia]. rewrite EA. apply (lies_mostly _ _ _ _ _ _ _ L1), (lies_mostly _ _ _ _ _ _ _ L2).
    split; [rewrite zlen_app; lia|]. exists s1, cut. split; [reflexivity|]. split; [exact A1|]. split; [exists s1; reflexivity|right; lia].
Qed.
Lemma form_all e k : wf e -> calm e -> forall o r o', 0 <= o <= blen e ->
  iter_loop (R := unit) k (fun _ => read_public_key ;; read_signature ;; ret (Next tt)) tt e o = (Ret r, o') ->
  exists l, zlen l = Z.of_nat k /\ Forall form_approved l /\ mostly (missing l) e o (List.concat (List.map approved_bytes l)) o' /\ o <= o' <= blen e + 64.
Proof.
  intros W C. induction k as [|k IH]; intros o r o' I H; cbn [iter_loop] in H.
  - injection H as _ <-. exists []. split; [reflexivity|]. split; [constructor|]. split; [apply mostly_lies; [left; reflexivity|apply lies_nil; auto]|lia].
  - bx H f o1 B. bx B u q K. bx B u1 q1 S1. apply ret_inv in B. destruct B as [-> ->].
    destruct (form_one _ _ _ _ _ _ W C I K S1) as (a & Fa & Ba & Ma & La).
    destruct (Z_le_gt_dec q1 (blen e)) as [Le|Gt].
    + assert (J : 0 <= q1 <= blen e) by lia. destruct (IH _ _ _ J H) as (l & Zl & Fl & Ml & Bl).
      exists (a :: l). split; [rewrite zlen_cons; lia|]. split; [constructor; auto|]. split; [|lia].
      cbn [List.map List.concat]. apply (lies_mostly _ _ _ _ _ _ _ (La Le)). apply (mostly_weak (missing l)); [|exact Ml].
      intros c [-> |(m & b & s & -> & Es)]; [left; reflexivity|]. right. exists (a :: m), b, s. auto.
    + destruct k as [|k].
      * cbn [iter_loop] in H. injection H as _ <-. exists [a]. split; [reflexivity|]. split; [constructor; auto|]. split; [|lia].
        cbn [List.map List.concat]. rewrite app_nil_r. revert Ma. apply mostly_weak.
        intros c (s & Es). right. exists [], a, s. auto.
      * exfalso. cbn [iter_loop] in H. bx H f o2 B. bx B u2 q2 K2. 
        assert (J : in16 q1) by (destruct C as [C _]; unfold in16; lia).
        destruct (public_key_inv _ _ _ _ W J K2) as (t & _ & Lt & _). lia.
Qed.
Lemma form_approvals e o r o' : wf e -> calm e -> 0 <= o <= blen e -> read_txV1_approvals e o = (Ret r, o') ->
  exists l, Forall form_approved l /\ mostly (missing l) e o (approvals_bytes l) o' /\ o <= o' <= blen e + 64 /\ r = u8 (zlen l).
Proof.
  intros W C I H. assert (I0 : in16 o) by (pose proof (wf_max e W); unfold in16; lia). unfold read_txV1_approvals in H.
  bx H n o1 R. bx H u o2 L. apply ret_inv in H. destruct H as [-> ->]. rewrite loop_iter in L.
  destruct (lies_u32 _ _ _ _ W I0 R) as [L1 V1]. destruct (lies_in _ _ _ _ W L1) as (_ & B1 & I1).
  assert (J : 0 <= o1 <= blen e) by lia.
  destruct (form_all _ _ W C _ _ _ J L) as (l & Zl & Fl & Ml & Bl). exists l. split; [exact Fl|].
  assert (zlen l = n) as E by (unfold word in V1; lia). unfold approvals_bytes. change (S.len l) with (zlen l). rewrite E.
  split; [exact (lies_mostly _ _ _ _ _ _ _ L1 Ml)|]. split; [lia|reflexivity].
Qed.

(** ** The whole transaction *)
(** where the body starts *)
Definition body_at (k : numbers) (u : form) : Z :=
  tsize (n_top k) + 32 + tsize (n_payload k) + zlen (under (n_initiator k) (initiator_fields (f_initiator u))) + 16
  + zlen (lv (f_chain u)) + zlen (under (n_price k) (price_fields (f_price u))).
Definition form_obj (x : bool) (k : numbers) (u : form) : txv1 :=
  let '(a, (t, nt), (ep, ptr, ln, ne)) := body_obj x (body_at k u) k (f_args u) (f_target u) (f_entry u) in
  mkTx (meta_of (n_top k)) (header_obj (f_initiator u) (f_chain u) (n_price k) (f_price u)) (meta_of (n_payload k))
       ep ptr ln t a (u8 (3 + (if x then 5 else 0) + nt + ne)) (u8 (zlen (f_approvals u))).
Lemma form_v1 e v o' : wf e -> calm e -> parser_read_transactionV1 e 0 = (Ret v, o') ->
  exists k u, mostly (missing (f_approvals u)) e 0 (form_bytes k u) o' /\ form_ok u /\ numbers_ok k u /\
    lies e 0 (heading (n_top k) ++ f_hash u ++ form_payload k u) (zlen (heading (n_top k)) + 32 + zlen (form_payload k u)) /\
    v = form_obj (expert e) k u.
Proof.
  intros W Cm H. pose proof (wf_max e W) as Mx. pose proof Cm as [C NL]. unfold parser_read_transactionV1 in H.
  bx H n oN N. bx H u oC Ck. assert (oC = 0) as -> by (clear - N Ck; pinv; auto). 
  assert (B0 : 0 <= 0 <= blen e) by (rewrite (wf_len e W); pose proof (zlen_nonneg (mem e)); lia).
  bx H m o1 M. destruct (table_read _ _ _ _ W B0 M) as (top & Tt & Lt & -> & B1 & I1).
  assert (E1 : o1 = 8 + 6 * zlen (t_offs top)).
  { destruct Lt as [_ E]. rewrite zlen_heading in E. lia. }
  assert (Nt : zlen (t_offs top) <= 10) by (pose proof (to_num _ Tt); pose proof (to_len _ Tt) as X; change (S.len (t_offs top)) with (zlen (t_offs top)) in X; lia).
  cbn [meta_of metadata_size fields_size] in H. rewrite !foff_off in H. rewrite <- E1 in H.
  bx H u1 o2 F0. bx H hh o3 RH. bx H u2 o4 F1.
  apply field_inv in F0. destruct F0 as [F0 ->]. apply field0 in F0; [|exact I1|apply off_ok, Tt].
  destruct (lies_hash _ _ _ _ W Cm B1 RH) as [B3 Hh].
  apply field_inv in F1. destruct F1 as [F1 ->]. apply field_eq in F1; [|exact I1|apply off_ok, Tt|lia].
  bx H pm o5 M2.
  assert (L3 : o3 <= blen e).
  { assert (I : in16 o3) by (unfold in16; lia). destruct (lies_table _ _ _ _ W I M2) as (tq & _ & Lq & _). destruct (lies_in _ _ _ _ W Lq). lia. }
  destruct (Hh L3) as (h & Zh & Lh). assert (E3 : o3 = o1 + 32) by (destruct Lh as [_ E]; lia).
  assert (J3 : 0 <= o3 <= blen e) by lia.
  destruct (table_read _ _ _ _ W J3 M2) as (pay & Tp & Lp & -> & B5 & I5).
  assert (E5 : o5 = o3 + (8 + 6 * zlen (t_offs pay))) by (destruct Lp as [_ E]; rewrite zlen_heading in E; lia).
  assert (Np : zlen (t_offs pay) <= 10) by (pose proof (to_num _ Tp); pose proof (to_len _ Tp) as X; change (S.len (t_offs pay)) with (zlen (t_offs pay)) in X; lia).
  pose proof (zlen_nonneg (t_offs pay)) as Zp. pose proof (zlen_nonneg (t_offs top)) as Zt.
  assert (PF : payload_first (meta_of top) (meta_of pay) = o5).
  { unfold payload_first. rewrite foff_off. cbn [meta_of metadata_size]. rewrite u32_small; lia. }
  rewrite PF in H. cbv zeta in H. cbn [meta_of fields_size] in H.
  bx H u3 o6 G0. bx H hd o7 HD. bx H u4 o8 G5. bx H b o9 BD. bx H u5 o10 GS. bx H u6 o11 F2. bx H na o12 AP. bx H u7 o13 FS. bx H x o14 X.
  apply field_inv in G0. destruct G0 as [_ ->]. apply field_inv in G5. destruct G5 as [G5 ->].
  assert (J5 : 0 <= o5 < 1000) by lia.
  assert (J7 : o5 <= o7 <= blen e + 64).
  { assert (Q : 0 <= o5 <= blen e + slack false) by (cbn [slack]; lia). pose proof (fw_header _ _ _ _ _ _ W Cm Q HD) as F. cbn [slack] in F. lia. }
  assert (L7 : o7 <= blen e).
  { clear - BD W J7 C B5. unfold read_txV1_body in BD. bx BD n q R. assert (I : in16 o7) by (unfold in16; lia).
    destruct (lies_u32 _ _ _ _ W I R) as [L _]. destruct (lies_in _ _ _ _ W L). lia. }
  assert (Wf : forall k, word (foff (meta_of pay) k)) by (intros k; rewrite foff_off; apply off_ok, Tp).
  destruct (form_header _ _ _ _ _ _ W Cm J5 PF Wf HD L7) as (ti & a & time & ttl & chain & tp & p & LH & Ci & Ni & Fi & Vt & Vl & Cp & Fp & Eh & Offs).
  assert (J7' : 0 <= o7 <= blen e) by lia.
  destruct (form_body _ _ _ _ W Cm J7' BD) as (kb & xa & y & z & LB & NB & Fx & Fy & Cz & Eb). destruct (lies_in _ _ _ _ W LB) as (_ & B9 & I9).
  apply field_inv in GS. destruct GS as [GS ->]. apply field_inv in F2. destruct F2 as [F2 ->].
  apply field_eq in F2; [|exact I1|apply off_ok, Tt|lia].
  assert (J9 : 0 <= o9 <= blen e) by lia.
  destruct (form_approvals _ _ _ _ W Cm J9 AP) as (l & Fl & Ml & B12 & Er).
  apply field_inv in FS. destruct FS as [FS ->].
  assert (x = expert e /\ o14 = o12) as [-> ->] by (clear - X; pinv; auto).
  assert (HV : (v, o') = (let '(a0, (t, nt), (ep, ptr, ln, ne)) := b in mkTx (meta_of top) hd (meta_of pay) ep ptr ln t a0 (u8 (3 + (if expert e then 5 else 0) + nt + ne)) na, o12)).
  { destruct b as [[ba [bt bnt]] [[[bet bep1] bep2] bne]]. apply ret_inv in H. destruct H as [-> ->]. reflexivity. }
  clear H. apply pair_equal_spec in HV. destruct HV as [HV ->].
  pose proof (Z.mod_pos_bound (t_size pay) 65536 ltac:(lia)) as Ms1. pose proof (Z.mod_pos_bound (t_size top) 65536 ltac:(lia)) as Ms2.
  rewrite u32_small in GS by lia. rewrite u32_small in FS by lia.
  set (k := Numbers top pay ti tp (n_args kb) (n_target kb) (n_id kb) (n_runtime kb) (n_entry kb) (n_sched kb)).
  set (w := Form h a time ttl chain p xa y z l).
  assert (ET : target_fields k y = target_fields kb y) by (destruct y; reflexivity).
  set (hb := under ti (initiator_fields a) ++ le 8 time ++ le 8 ttl ++ lv chain ++ under tp (price_fields p)) in *.
  assert (EF : List.concat (form_fields k w) = hb ++ body_bytes kb xa y z).
  { unfold form_fields, hb, w, body_bytes. cbn [f_initiator f_time f_ttl f_chain f_price f_args f_target f_entry List.concat]. rewrite ET.
    cbn [k n_initiator n_price n_args n_target n_entry n_sched]. rewrite app_nil_r, <- !app_assoc. reflexivity. }
  assert (LP : lies e o3 (form_payload k w) o9).
  { unfold form_payload, under. rewrite EF. exact (lies_app _ _ _ _ _ _ Lp (lies_app _ _ _ _ _ _ LH LB)). }
  assert (LT : lies e 0 (heading (n_top k) ++ f_hash w ++ form_payload k w) o9).
  { exact (lies_app _ _ _ _ _ _ Lt (lies_app _ _ _ _ _ _ Lh LP)). }
  assert (EB : form_bytes k w = (heading (n_top k) ++ f_hash w ++ form_payload k w) ++ approvals_bytes l).
  { unfold form_bytes, under, top_fields. cbn [List.concat f_approvals w]. rewrite app_nil_r, <- !app_assoc. reflexivity. }
  assert (MB : mostly (missing l) e 0 (form_bytes k w) o12) by (rewrite EB; exact (lies_mostly _ _ _ _ _ _ _ LT Ml)).
  assert (E9 : o9 = o3 + zlen (form_payload k w)) by exact (proj2 LP).
  assert (Ehb : o7 = o5 + zlen hb) by exact (proj2 LH).
  assert (Ebb : o9 = o7 + zlen (body_bytes kb xa y z)) by exact (proj2 LB).
  assert (E12 : o12 = o9 + zlen (approvals_bytes l)) by exact (proj1 Ml).
  exists k, w. split; [exact MB|]. split; [|split; [|split]].
  - constructor; cbn [w f_hash f_initiator f_time f_ttl f_price f_args f_target f_entry f_approvals]; auto.
  - destruct NB. constructor; cbn [k w n_top n_payload n_initiator n_price n_args n_target n_id n_runtime n_entry n_sched f_initiator f_price f_target f_entry]; auto.
    + split.
      * assert (L2 : off top 2 <> 0) by (pose proof (zlen_nonneg (form_payload k w)); lia). apply off_long in L2.
        apply starts_of; [exact Tt|exact L2|]. unfold top_fields. cbn [w f_hash f_approvals]. fold w.
        intros i Li. cbn [List.length] in Li.
        destruct i as [|[|[|i]]]; [cbn [offsets nth]; lia|cbn [offsets nth]; change (@S.len Z) with (@zlen Z); lia|cbn [offsets nth]; change (@S.len Z) with (@zlen Z); lia|lia].
      * unfold top_fields. cbn [w f_hash f_approvals List.concat]. fold w. change (@S.len Z) with (@zlen Z). rewrite app_nil_r, !zlen_app.
        pose proof (proj2 LP). lia.
    + split.
      * assert (O5 : off pay 5 <> 0).
        { rewrite <- foff_off, (Offs 5%nat ltac:(lia)). cbn [offsets nth]. change (@S.len Z) with (@zlen Z). rewrite !le_length.
          pose proof (zlen_nonneg (under ti (initiator_fields a))). pose proof (zlen_nonneg (lv chain)). pose proof (zlen_nonneg (under tp (price_fields p))). lia. }
        apply off_long in O5. apply starts_of; [exact Tp|exact O5|].
        intros i Li. cbn [form_fields List.length] in Li. rewrite <- foff_off, (Offs i ltac:(lia)).
        destruct i as [|[|[|[|[|[|i]]]]]]; [reflexivity..|lia].
      * rewrite EF. change (@S.len Z) with (@zlen Z). rewrite zlen_app. lia.
    + rewrite <- ET in bn_target0. destruct y; exact bn_target0.
  - replace (zlen (heading (n_top k)) + 32 + zlen (form_payload k w)) with o9; [exact LT|].
    cbn [k n_top]. rewrite zlen_heading. lia.
  - rewrite HV, Eb, Eh, Er. unfold form_obj. change (n_top k) with top. change (n_payload k) with pay. change (n_price k) with tp.
    cbn [w f_initiator f_chain f_price f_args f_target f_entry f_approvals].
    assert (body_at k w = o7) as ->.
    { unfold body_at. cbn [k w n_top n_payload n_initiator n_price f_initiator f_chain f_price]. unfold tsize. rewrite Ehb. unfold hb. rewrite !zlen_app, !le_length. cbn [Z.of_nat Pos.of_succ_nat Pos.succ]. lia. }
    unfold body_obj, entry_obj, entry_at. cbn [k n_args n_target n_id n_entry]. rewrite ET. reflexivity.
Qed.

Lemma form_content pf x data v : hash32 (p_hash pf) -> bytes data -> zlen data < 65472 -> no_leap data ->
  tx_parse pf x (1 :: data) = Ret (TV1 v) ->
  exists k u rest cut, data ++ cut = form_bytes k u ++ rest /\ (cut = [] \/ rest = []) /\ missing (f_approvals u) cut /\
    form_ok u /\ numbers_ok k u /\ f_hash u = p_hash pf (form_payload k u) /\
    v = form_obj x k u /\ exists post, data = (heading (n_top k) ++ f_hash u ++ form_payload k u) ++ post.
Proof.
  intros Hh B L NL H. destruct (accept_inv _ _ _ _ _ (ltac:(lia) : zlen data < 65535) H) as (Lp & o1 & o2 & its & o3 & u0 & PC & VA & It).
  assert (W : wf (ctx_of pf x false 40 data (zlen data))) by (apply wf_ctx; auto; lia).
  set (e := ctx_of pf x false 40 data (zlen data)) in *.
  apply content_v1 in PC. destruct PC as [_ R].
  assert (Cm : calm e) by (split; [cbn [e blen ctx_of]; lia|exact NL]).
  destruct (form_v1 e v _ W Cm R) as (k & u & Mo & Fo & No & Lt & Ev).
  change (expert e) with x in Ev.
  assert (tmeta v = meta_of (n_top k) /\ tpayload_meta v = meta_of (n_payload k)) as [M1 M2] by (rewrite Ev; unfold form_obj; destruct (body_obj _ _ _ _ _ _) as [[? [? ?]] [[[? ?] ?] ?]]; split; reflexivity).
  pose proof (no_top _ _ No) as [[Tt (mt & Ot)] _]. pose proof (no_payload _ _ No) as [[Tp _] Sp].
  assert (Zh : zlen (f_hash u) = 32) by exact (fo_hash _ Fo).
  assert (HV : f_hash u = p_hash pf (form_payload k u)).
  { unfold validateTxV1 in VA. rewrite M1, M2, !foff_off in VA. cbn [meta_of metadata_size fields_size] in VA.
    assert (O0 : off (n_top k) 0 = 0) by (unfold off; rewrite Ot; reflexivity).
    assert (O1 : off (n_top k) 1 = 32) by (unfold off; rewrite Ot; cbn; change (@S.len Z) with (@zlen Z); lia).
    rewrite O0, O1, Sp in VA. change (@S.len Z) with (@zlen Z) in VA.
    destruct Lt as [At _]. apply at_app in At. destruct At as [_ At]. apply at_app in At. destruct At as [Ah Ap].
    unfold at_ in Ah, Ap. rewrite Zh in *.
    replace (0 + zlen (heading (n_top k))) with (8 + 6 * zlen (t_offs (n_top k)) + 0) in Ah, Ap by (rewrite zlen_heading; lia).
    assert (Zp : zlen (form_payload k u) = 8 + 6 * zlen (t_offs (n_payload k)) + zlen (List.concat (form_fields k u)))
      by (unfold form_payload, under; rewrite zlen_app, zlen_heading; lia).
    rewrite Zp in Ap. rewrite step_ask in VA. unfold bind at 1 in VA. unfold mem_slice at 1 in VA.
    replace (8 + 6 * zlen (t_offs (n_top k)) + 0 + 32) with (8 + 6 * zlen (t_offs (n_top k)) + 32) in Ap by lia.
    rewrite Ap in VA. unfold bind at 1 in VA. unfold mem_slice at 1 in VA. rewrite Ah in VA.
    apply check_inv in VA. destruct VA as [E _]. apply list_eqb_eq in E. symmetry. exact E. }
  assert (PO : exists post, data = (heading (n_top k) ++ f_hash u ++ form_payload k u) ++ post).
  { destruct Lt as [A1 _]. apply at_here in A1. destruct A1 as (pre & post & Ed & Lpre).
    destruct pre as [|q pre]; [|pose proof (zlen_nonneg pre); change (S.len (q :: pre)) with (zlen (q :: pre)) in Lpre; rewrite zlen_cons in Lpre; lia].
    exists post. exact Ed. }
  destruct Mo as (_ & b1 & cut & Eb & A1 & Zc & D). apply at_here in A1. destruct A1 as (pre & post & Ed & Lpre).
  destruct pre as [|q pre]; [|pose proof (zlen_nonneg pre); change (S.len (q :: pre)) with (zlen (q :: pre)) in Lpre; rewrite zlen_cons in Lpre; lia].
  cbn [app] in Ed. change (mem e) with data in Ed. destruct D as [-> | D].
  - exists k, u, post, []. rewrite app_nil_r in Eb. split; [rewrite Eb, app_nil_r; exact Ed|auto 10].
  - assert (post = []) as ->.
    { change (blen e) with (zlen data) in D. rewrite Ed, zlen_app in D. destruct post as [|q post]; [reflexivity|]. rewrite zlen_cons in D. pose proof (zlen_nonneg post). lia. }
    exists k, u, [], cut. split; [rewrite Eb, !app_nil_r, Ed, app_nil_r; reflexivity|auto 10].
Qed.

Lemma form_accepted pf x data v : hash32 (p_hash pf) -> bytes data -> zlen data < 65472 -> no_leap data ->
  tx_parse pf x (1 :: data) = Ret (TV1 v) ->
  exists k u rest cut, data ++ cut = form_bytes k u ++ rest /\ (cut = [] \/ rest = []) /\ missing (f_approvals u) cut /\
    form_ok u /\ numbers_ok k u /\ f_hash u = p_hash pf (form_payload k u).
Proof.
  intros Hh B L NL H. destruct (form_content _ _ _ _ Hh B L NL H) as (k & u & rest & cut & E & D & Zc & Fo & No & HV & _).
  exists k, u, rest, cut. auto 10.
Qed.
