(** Taking apart arbitrary bytes accepted as a TransactionV1. *)
From Verif Require Import Base Zxlib Crypto Utils RuntimeArg Deploy DeployUI TxV1 TxV1UI Parser BaseFacts Spec SpecText SpecDeploy SpecTx SpecLayout Exec ArgsFacts ReaderFacts RangeFacts BindFacts SafeFacts.
From Verif Require Export FwdFacts.
Import S SX SL.

(** * Preliminaries *)
Lemma safe_ok {A} (p : P A) e o a o' : safe p -> wf e -> in16 o -> p e o = (Ret a, o') -> in16 o'.
Proof. intros S W I E. destruct (S e o W I) as [Q _]. rewrite E in Q. exact Q. Qed.
(** cursors reached by successful steps *)
Ltac sok := repeat match goal with
  | H : ?q ?e ?o = (Ret _, ?o'), I : in16 ?o, W : wf ?e |- _ =>
      lazymatch goal with _ : in16 o' |- _ => fail | _ =>
        assert (in16 o') by (eapply (safe_ok q e o); [solve [eauto with safe] | exact W | exact I | exact H]) end
  end.


Lemma field_inv base fo e o r o' : at_field base fo e o = (Ret r, o') -> o = u32 (base + fo) /\ o' = o.
Proof. unfold at_field. intros H. pinv. split; [lia|reflexivity]. Qed.
(** a field at the end of its table, and elsewhere *)
Lemma field0 base fo : in16 base -> word fo -> base = u32 (base + fo) -> fo = 0.
Proof. unfold in16, word, u32. intros. lia. Qed.
Lemma field_eq base fo o : in16 base -> word fo -> base <= o < 65536 -> o = u32 (base + fo) -> fo = o - base.
Proof. unfold in16, word, u32. intros. lia. Qed.

(** * Tables *)
Definition meta_of (t : tbl) : metadata :=
  mkMeta (zlen (t_offs t)) (8 + 6 * zlen (t_offs t)) (t_offs t) (t_size t mod 65536).

Lemma at_nil e o : wf e -> 0 <= o <= blen e -> at_ e o [].
Proof.
  intros W L. unfold at_. change (zlen []) with 0. rewrite (wf_len e W) in L.
  destruct (slice_total (mem e) o 0) as [bs Hb]; try lia. pose proof (slice_len _ _ _ _ Hb) as Z. destruct bs; [exact Hb|].
  rewrite zlen_cons in Z. pose proof (zlen_nonneg bs). lia.
Qed.

Lemma field_offsets_inv k : forall i e o l o',
  wf e -> 0 <= o <= blen e -> read_field_offsets k i e o = (Ret l, o') ->
  at_ e o (raw_entries i l) /\ Forall word l /\ zlen l = Z.of_nat k /\ o' = o + 6 * zlen l /\ o' <= blen e.
Proof.
  induction k as [|k IH]; intros i e o l o' W I H; cbn [read_field_offsets] in H.
  - apply ret_inv in H. destruct H as [-> ->]. cbn [raw_entries]. split; [apply at_nil; auto|].
    split; [constructor|]. change (zlen []) with 0. lia.
  - bx H ix o1 R1. bx H u o2 C. bx H fo o3 R2. bx H r o4 R3. pinv. pose proof (wf_max e W).
    apply readU16_inv in R1; [|auto|unfold in16; lia]. destruct R1 as (V1 & A1 & L1 & ->).
    apply readU32_inv in R2; [|auto|unfold in16; lia]. destruct R2 as (V2 & A2 & L2 & ->).
    apply IH in R3; [|auto|lia]. destruct R3 as (A3 & F & Z & -> & L3). rewrite zlen_cons. cbn [raw_entries].
    split.
    + rewrite !at_app, !le_length. cbn [Z.of_nat Pos.of_succ_nat Pos.succ]. replace ix with i in A1 by lia. auto.
    + split; [constructor; auto|]. lia.
Qed.
Lemma zlen_raw_entries l : forall i, zlen (raw_entries i l) = 6 * zlen l.
Proof.
  induction l as [|x l IH]; intros i; cbn [raw_entries]; [reflexivity|].
  rewrite !zlen_app, !le_length, IH, zlen_cons. cbn [Z.of_nat Pos.of_succ_nat Pos.succ]. lia.
Qed.
Lemma zlen_raw_head n l s : zlen (raw_head n l s) = 8 + 6 * zlen l.
Proof. unfold raw_head. rewrite !zlen_app, !le_length, zlen_raw_entries. cbn [Z.of_nat Pos.of_succ_nat Pos.succ]. lia. Qed.

Lemma metadata_inv e o m o' : wf e -> in16 o -> read_metadata e o = (Ret m, o') ->
  exists t, tbl_at (mem e) o t /\ m = meta_of t /\ o' = first o t /\ o' <= blen e /\ in16 o' /\ 1 <= zlen (t_offs t) <= 10.
Proof.
  intros W I H. unfold read_metadata in H. bx H n o1 N. bx H u o2 C. bx H st o3 G. bx H nf o4 R1. bx H u2 o5 C2.
  bx H l o6 R2. bx H fs o7 R3. bx H oo o8 G2. pinv. unfold in16 in I. pose proof (wf_max e W).
  apply readU32_inv in R1; [|auto|exact I]. destruct R1 as (V1 & A1 & L1 & ->).
  match goal with H : _ && _ = true |- _ => apply andb_true_iff in H; destruct H as [B1 B2] end. unfold MAX_METADATA_FIELDS in B2.
  apply field_offsets_inv in R2; [|auto|lia]. destruct R2 as (A2 & F & Z & -> & L2).
  apply readU32_inv in R3; [|auto|unfold in16; lia]. destruct R3 as (V3 & A3 & L3 & ->).
  rewrite Z2Nat.id in Z by lia.
  exists (Tbl nf l fs). unfold meta_of, first. cbn [t_n t_offs t_size]. change (S.len l) with (zlen l).
  split.
  - constructor; cbn [t_n t_offs t_size]; auto.
    + apply at_here. unfold raw_head. rewrite !at_app, !le_length, zlen_raw_entries. cbn [Z.of_nat Pos.of_succ_nat Pos.succ].
      split; [exact A1|]. split; [exact A2|]. exact A3.
    + unfold u8 in *. lia.
  - split.
    + f_equal; [unfold u8 in *; lia|]. rewrite u16_small by lia. lia.
    + unfold in16. lia.
Qed.

(** * The header *)
Lemma public_key_inv e o r o' : wf e -> in16 o -> read_public_key e o = (Ret r, o') ->
  exists t, at_ e o [t] /\ o + 1 <= blen e /\ (t = 0 \/ t = 1 \/ t = 2) /\ o' = u16 (o + (if t =? 0 then 1 else if t =? 1 then 33 else 34)).
Proof.
  intros W I H. unfold read_public_key in H. bx H t o1 R. bx H u o2 C. pinv.
  apply readU8_inv in R; auto. destruct R as (V & A & L & ->). exists t. split; [exact A|]. split; [exact L|].
  assert (t = 0 \/ t = 1 \/ t = 2) as T by lia. split; [exact T|]. pose proof (wf_max e W). unfold in16 in I.
  destruct T as [->|[->| ->]]; cbn [Z.eqb Pos.eqb] in *; unfold advance in H; pgo;
    solve [reflexivity | rewrite u16_small by lia; lia | apply (f_equal u16); lia].
Qed.
Lemma two_offs (l : list Z) : zlen l = 2 -> exists a b, l = [a; b].
Proof.
  destruct l as [|a [|b [|c l]]]; intros H; try discriminate H; [exists a, b; reflexivity|].
  rewrite !zlen_cons in H. pose proof (zlen_nonneg l). lia.
Qed.

Lemma initiator_inv e m pm o r o' : wf e -> 0 <= o < 1000 -> payload_first m pm = o ->
  read_initiator_address m pm e o = (Ret r, o') ->
  exists ini n, tbl_at (mem e) o ini /\ t_offs ini = [0; 1] /\ (n = 2 \/ n = 33 \/ n = 34 \/ n = 35) /\
    fin o ini = first o ini + n /\ o' = o + 20 + n /\ r = (20, n - 1) /\
    (o' <= blen e -> exists who, here (mem e) (first o ini) who /\ len who = n /\ initiator_bytes who).
Proof.
  intros W Lo PF H. unfold read_initiator_address in H. rewrite PF in H.
  bx H im o1 M. bx H u1 o2 N. bx H u2 o3 F0. bx H tag o4 R. bx H u3 o5 C. bx H u4 o6 F1. bx H st o7 G. bx H u5 o8 K. bx H u6 o9 F2.
  bx H oo o10 G2. apply ret_inv in H. destruct H as [-> ->]. apply get_off_inv in G2. destruct G2 as [-> ->].
  apply get_off_inv in G. destruct G as [-> ->].
  apply metadata_inv in M; [|auto|unfold in16; lia]. destruct M as (ini & T & -> & -> & L1 & I1 & _).
  unfold check in N, C. destruct (num_fields (meta_of ini) =? 2) eqn:N2; [|discriminate N]. apply ret_inv in N. destruct N as [_ ->].
  cbn [meta_of num_fields] in N2.
  destruct (two_offs (t_offs ini)) as (a & b & E); [lia|].
  pose proof (tb_offs _ _ _ T) as FW. rewrite E in FW. inversion FW as [|? ? Wa FW']. inversion FW' as [|? ? Wb _]. subst.
  assert (F20 : first (payload_first m pm) ini = payload_first m pm + 20) by (unfold first; rewrite E; cbn; lia).
  set (o := payload_first m pm) in *.
  cbn [meta_of metadata_size fields_size foff field_offsets] in *. unfold foff in F0, F1. cbn [meta_of field_offsets] in F0, F1.
  rewrite E in *. cbn [nth] in F0, F1. change (zlen [a; b]) with 2 in *. change (8 + 6 * 2) with 20 in *.
  rewrite (u32_small (o + 20)) in * by lia. rewrite F20 in *.
  apply field_inv in F0. destruct F0 as [F0 ->]. apply field0 in F0; [|unfold in16; lia|exact Wa]. subst a.
  apply readU8_inv in R; [|auto|exact I1]. destruct R as (V & A & L & ->).
  destruct ((tag =? 0) || (tag =? 1)) eqn:Tg; [|discriminate C]. apply ret_inv in C. destruct C as [_ ->].
  apply field_inv in F1. destruct F1 as [F1 ->]. assert (b = 1) by (apply (field_eq (o + 20)) in F1; auto; unfold in16; lia). subst b.
  apply field_inv in F2. destruct F2 as [F2 ->].
  assert (exists n, o8 = o + 20 + n /\ (n = 2 \/ n = 33 \/ n = 34 \/ n = 35) /\
    (o8 <= blen e -> exists who, at_ e (o + 20) who /\ zlen who = n /\ initiator_bytes who)) as (n & -> & Hn & Wh).
  { destruct (tag =? 0) eqn:T0.
    - assert (tag = 0) by lia. subst tag. apply public_key_inv in K; [|auto|unfold in16; lia].
      destruct K as (t & At & Lt & Ht & ->).
      exists (1 + (if t =? 0 then 1 else if t =? 1 then 33 else 34)).
      rewrite u16_small by (destruct Ht as [->|[->| ->]]; cbn; lia).
      split; [lia|]. split; [destruct Ht as [->|[->| ->]]; cbn; lia|]. intros LB.
      destruct (at_total e (o + 22) (if t =? 0 then 0 else if t =? 1 then 32 else 33) W) as (k & Ak & Lk);
        [lia|destruct Ht as [->|[->| ->]]; cbn; lia|destruct Ht as [->|[->| ->]]; cbn in *; lia|].
      exists (0 :: t :: k). split; [|split].
      + change (0 :: t :: k) with ([0] ++ [t] ++ k). rewrite !at_app. change (zlen [0]) with 1. change (zlen [t]) with 1.
        split; [exact A|]. replace (o + 20 + 1 + 1) with (o + 22) by lia. auto.
      + rewrite !zlen_cons, Lk. destruct Ht as [->|[->| ->]]; cbn; lia.
      + unfold initiator_bytes. change (S.len k) with (zlen k). destruct Ht as [->|[->| ->]]; cbn [Z.eqb Pos.eqb] in Lk.
        * left. destruct k; [reflexivity|]. rewrite zlen_cons in Lk. pose proof (zlen_nonneg k). lia.
        * right; left. exists k. split; [reflexivity|exact Lk].
        * right; right; left. exists k. split; [reflexivity|exact Lk].
    - assert (tag = 1) by lia. subst tag. unfold read_hash in K.
      pinv. rewrite (u16_small (o + 20 + 1 + 32)) in * by lia.
      exists 33. split; [lia|]. split; [lia|]. intros LB. destruct (at_total e (o + 21) 32 W) as (k & Ak & Lk); [lia|lia|lia|].
      exists (1 :: k). split; [|split].
      + change (1 :: k) with ([1] ++ k). rewrite at_app. change (zlen [1]) with 1. split; [exact A|]. replace (o + 20 + 1) with (o + 21) by lia. exact Ak.
      + rewrite zlen_cons. lia.
      + right; right; right. exists k. split; [reflexivity|exact Lk]. }
  exists ini, n. split; [exact T|]. split; [exact E|]. split; [exact Hn|]. unfold fin. rewrite F20. rewrite u32_small in F2 by lia.
  split; [lia|]. split; [lia|]. split; [f_equal; rewrite u8_small by lia; lia|].
  intros LB. destruct (Wh LB) as (who & Aw & Lw & Iw). exists who. split; [apply at_here; exact Aw|]. split; [exact Lw|exact Iw].
Qed.

Lemma u32_shift a b o : u32 a = o -> 0 <= o < 65536 -> 0 <= b < 65536 -> u32 (a + b) = o + b.
Proof. unfold u32. intros. lia. Qed.

Lemma off_word e p t k : tbl_at (mem e) p t -> word (off t k).
Proof.
  intros T. pose proof (tb_offs _ _ _ T) as F. unfold off. destruct (Nat.lt_ge_cases k (List.length (t_offs t))) as [L|L].
  - rewrite Forall_forall in F. apply F, nth_In, L.
  - rewrite nth_overflow by lia. unfold word. lia.
Qed.
Lemma foff_off t k : foff (meta_of t) k = off t k. Proof. reflexivity. Qed.

Lemma pricing_inv e m pm o r o' : wf e -> in16 o -> u32 (payload_first m pm + foff pm 4) = o ->
  read_pricing_mode m pm e o = (Ret r, o') ->
  exists pri n, tbl_at (mem e) o pri /\ off pri 0 = 0 /\ off pri 1 = 1 /\ 1 <= zlen (t_offs pri) <= 10 /\ 3 <= n <= 33 /\
    fin o pri = first o pri + n /\ o' = first o pri + n /\ in16 o' /\ snd r = 8 + 6 * zlen (t_offs pri) /\ 0 <= fst r <= 2 /\
    (o' <= blen e -> exists price, here (mem e) (first o pri) price /\ len price = n /\ pricing_bytes price pri /\ here (mem e) (first o pri) [fst r]).
Proof.
  intros W Io PF H. unfold read_pricing_mode in H.
  bx H qm o1 M. bx H u1 o2 F0. bx H tag o3 R. bx H u2 o4 F1. bx H u3 o5 K. bx H u4 o6 F2. apply ret_inv in H. destruct H as [-> ->].
  apply metadata_inv in M; [|auto|exact Io]. destruct M as (pri & T & -> & -> & L1 & I1 & Nf).
  cbn [meta_of metadata_size fields_size] in *. rewrite !foff_off in *.
  assert (B : u32 (payload_first m pm + foff pm 4 + (8 + 6 * zlen (t_offs pri))) = first o pri).
  { rewrite (u32_shift _ _ o) by (unfold in16 in *; lia). unfold first. change (S.len (t_offs pri)) with (zlen (t_offs pri)). lia. }
  rewrite B in *. pose proof (wf_max e W) as Mx. set (b := first o pri) in *.
  apply field_inv in F0. destruct F0 as [F0 ->]. apply field0 in F0; [|exact I1|apply (off_word e o), T].
  apply readU8_inv in R; [|auto|exact I1]. destruct R as (V & A & L & ->).
  apply field_inv in F1. destruct F1 as [F1 ->]. apply (field_eq b) in F1; [|exact I1|apply (off_word e o), T|unfold in16 in *; lia].
  apply field_inv in F2. destruct F2 as [F2 ->].
  assert (SZ : 0 <= t_size pri mod 65536 < 65536) by lia.
  rewrite u32_small in F2 by (unfold in16 in *; lia).
  assert (exists n, o5 = b + n /\ 3 <= n <= 33 /\ 0 <= tag <= 2 /\ in16 (b + n) /\
    (o5 <= blen e -> exists price, at_ e b price /\ zlen price = n /\ pricing_bytes price pri)) as (n & -> & Hn & Ht & In & Wh).
  { assert (tag = 0 \/ tag = 1 \/ tag = 2) as Tg by (clear - K V; pgo; try discriminate; lia).
    destruct Tg as [->|[->| ->]]; cbn [Z.eqb Pos.eqb] in K.
    - bx K a p1 R1. bx K u p2 G1. bx K g p3 R2. bx K u5 p4 G2. bx K s p5 R3. apply ret_inv in K. destruct K as [_ ->].
      apply readU64_inv in R1; [|auto|unfold in16 in *; lia]. destruct R1 as (V1 & A1 & L2 & ->).
      apply field_inv in G1. destruct G1 as [G1 ->]. apply (field_eq b) in G1; [|exact I1|apply (off_word e o), T|unfold in16 in *; lia].
      apply readU8_inv in R2; [|auto|unfold in16 in *; lia]. destruct R2 as (V2 & A2 & L3 & ->).
      apply field_inv in G2. destruct G2 as [G2 ->]. apply (field_eq b) in G2; [|exact I1|apply (off_word e o), T|unfold in16 in *; lia].
      apply readU8_inv in R3; [|auto|unfold in16 in *; lia]. destruct R3 as (V3 & A3 & L4 & ->).
      exists 11. split; [lia|]. split; [lia|]. split; [lia|]. split; [unfold in16 in *; lia|]. intros _.
      exists ([0] ++ le 8 a ++ [g] ++ [s]). split.
      + rewrite !at_app, le_length. cbn [Z.of_nat Pos.of_succ_nat Pos.succ]. change (zlen [0]) with 1. change (zlen [g]) with 1. auto.
      + split; [rewrite !zlen_app, le_length; reflexivity|]. left. exists (le 8 a), g, s.
        split; [reflexivity|]. split; [change (S.len (le 8 a)) with (zlen (le 8 a)); rewrite le_length; reflexivity|]. split; lia.
    - bx K g p1 R1. bx K u p2 G1. bx K f p3 R2. apply ret_inv in K. destruct K as [_ ->].
      apply readU8_inv in R1; [|auto|unfold in16 in *; lia]. destruct R1 as (V1 & A1 & L2 & ->).
      apply field_inv in G1. destruct G1 as [G1 ->]. apply (field_eq b) in G1; [|exact I1|apply (off_word e o), T|unfold in16 in *; lia].
      apply readU8_inv in R2; [|auto|unfold in16 in *; lia]. destruct R2 as (V2 & A2 & L3 & ->).
      exists 3. split; [lia|]. split; [lia|]. split; [lia|]. split; [unfold in16 in *; lia|]. intros _.
      exists ([1] ++ [g] ++ [f]). split; [|split; [reflexivity|]].
      + rewrite !at_app. change (zlen [1]) with 1. change (zlen [g]) with 1. auto.
      + right; left. exists g, f. split; [reflexivity|lia].
    - unfold read_hash in K. pinv. assert (NW : u16 (b + 1 + 32) = b + 33) by (unfold u16, in16 in *; lia). rewrite NW in *.
      exists 33. split; [lia|]. split; [lia|]. split; [lia|]. split; [unfold in16, u16 in *; lia|]. intros LB.
      destruct (at_total e (b + 1) 32 W) as (k & Ak & Lk); [unfold in16 in *; lia|lia|lia|].
      exists ([2] ++ k). split; [|split].
      + rewrite at_app. change (zlen [2]) with 1. auto.
      + rewrite zlen_app, Lk. reflexivity.
      + right; right. exists k. split; [reflexivity|exact Lk]. }
  exists pri, n. split; [exact T|]. split; [exact F0|]. split; [lia|]. split; [exact Nf|]. split; [exact Hn|]. fold b.
  split; [unfold fin; fold b; lia|]. split; [lia|]. split; [exact In|]. split; [reflexivity|]. split; [exact Ht|].
  intros LB. destruct (Wh LB) as (price & Ap & Lp & Bp). exists price. split; [apply at_here; exact Ap|]. split; [exact Lp|]. split; [exact Bp|].
  apply at_here. exact A.
Qed.


Lemma header_inv e m pm o h o' : wf e -> 0 <= o < 1000 -> payload_first m pm = o ->
  (forall k, word (foff pm k)) ->
  read_txV1_header m pm e o = (Ret h, o') ->
  exists n cl pri,
    (n = 2 \/ n = 33 \/ n = 34 \/ n = 35) /\ foff pm 0 = 0 /\ foff pm 1 = 20 + n /\ foff pm 2 = 28 + n /\ foff pm 3 = 36 + n /\
    at_ e (o + 36 + n) (le 4 cl) /\ word cl /\
    (exists ini who, tbl_at (mem e) o ini /\ t_offs ini = [0; 1] /\ here (mem e) (first o ini) who /\ initiator_bytes who /\
       fin o ini = first o ini + len who /\ len who = n) /\
    let q := u32 (o + 40 + n + cl) in
    u32 (o + foff pm 4) = q /\ q <= blen e /\ in16 q /\
    tbl_at (mem e) q pri /\ off pri 0 = 0 /\ off pri 1 = 1 /\
    (o' <= blen e -> exists price, here (mem e) (first q pri) price /\ pricing_bytes price pri /\ fin q pri = first q pri + len price /\
       here (mem e) (first q pri) [pricing_mode h]) /\
    u32 (o + foff pm 5) = o' /\ o' = fin q pri /\ in16 o' /\
    h = mkHeaderV1 20 (n - 1) (u8 cl) (pricing_mode h) (8 + 6 * zlen (t_offs pri)) /\ 0 <= pricing_mode h <= 2.
Proof.
  intros W Lo PF FW H. unfold read_txV1_header in H. rewrite PF in H.
  bx H u0 o0 F0. bx H ia o1 IA. bx H u1 o2 F1. bx H ts o3 R1. bx H u2 o4 F2. bx H tl o5 R2. bx H u3 o6 F3. bx H cl o7 CN.
  bx H u4 o8 F4. bx H q o9 PQ. bx H u5 o10 F5. apply ret_inv in H. destruct H as [-> ->].
  apply field_inv in F0. destruct F0 as [F0 ->]. apply field0 in F0; [|unfold in16; lia|apply FW].
  apply initiator_inv in IA; auto. destruct IA as (ini & n & T & E & Hn & Fi & -> & -> & Wh).
  apply field_inv in F1. destruct F1 as [F1 ->]. apply field_eq in F1; [|unfold in16; lia|apply FW|lia].
  apply readU64_inv in R1; [|auto|unfold in16; lia]. destruct R1 as (V1 & A1 & L1 & ->).
  apply field_inv in F2. destruct F2 as [F2 ->]. apply field_eq in F2; [|unfold in16; lia|apply FW|lia].
  apply readU64_inv in R2; [|auto|unfold in16; lia]. destruct R2 as (V2 & A2 & L2 & ->).
  apply field_inv in F3. destruct F3 as [F3 ->]. apply field_eq in F3; [|unfold in16; lia|apply FW|lia].
  unfold read_chain_name, read_string in CN. bx CN c oc BY. apply ret_inv in CN. destruct CN as [-> ->].
  apply bytes_inv in BY; [|auto|unfold in16; lia]. destruct BY as (Wc & Ac & Eo & Lc & Ic).
  apply field_inv in F4. destruct F4 as [F4 ->].
  apply pricing_inv in PQ; [|auto|exact Ic|rewrite PF; symmetry; exact F4].
  destruct PQ as (pri & k & Tp & P0 & P1 & Np & Hk & Fp & -> & Ip & Sn & Pm & Wp).
  apply field_inv in F5. destruct F5 as [F5 ->].
  destruct (Wh ltac:(lia)) as (who & Hw & Lw & Bw).
  exists n, c, pri. split; [exact Hn|]. split; [exact F0|]. split; [lia|]. split; [lia|]. split; [lia|].
  split; [replace (o + 36 + n) with (o + 20 + n + 8 + 8) by lia; exact Ac|]. split; [exact Wc|].
  split; [exists ini, who; rewrite Lw; auto 10|]. cbv zeta.
  replace (o + 40 + n + c) with (o + 20 + n + 8 + 8 + 4 + c) by lia. rewrite <- Eo.
  split; [symmetry; exact F4|]. split; [exact Lc|]. split; [exact Ic|]. split; [exact Tp|]. split; [exact P0|]. split; [exact P1|].
  split; [intros LB; destruct (Wp LB) as (price & X1 & X2 & X3 & X4); exists price; rewrite X2; auto|].
  split; [symmetry; exact F5|]. split; [symmetry; exact Fp|]. split; [exact Ip|]. cbn [pricing_mode fst snd]. rewrite Sn. split; [reflexivity|exact Pm].
Qed.

(** * The body *)
Lemma key_inv k e o r o' : wf e -> in16 o -> read_field_key k e o = (Ret r, o') ->
  at_ e o (le 2 k) /\ o' = o + 2 /\ o' <= blen e /\ in16 o'.
Proof.
  intros W I H. unfold read_field_key in H. bx H v o1 R. pinv. apply readU16_inv in R; auto. destruct R as (V & A & L & ->).
  pose proof (wf_max e W). match goal with H : (_ =? _) = true |- _ => apply Z.eqb_eq in H; subst end.
  unfold in16 in *. split; [exact A|]. lia.
Qed.

Lemma args_inv e o a o' : wf e -> in16 o -> read_args e o = (Ret a, o') ->
  exists al, at_ e o (le 4 al) /\ word al /\
    ((exists n, at_ e (o + 4) (0 :: le 4 n) /\ word n /\ run (mem e) n (o + 9) o') \/ (exists n, at_ e (o + 4) (1 :: le 4 n) /\ word n /\ o' = u32 (o + 9 + n))).
Proof.
  intros W I H. pose proof (wf_max e W). unfold read_args in H. bx H vl o1 R. bx H tag o2 T. unfold in16 in *.
  apply readU32_inv in R; [|auto|exact I]. destruct R as (V & A & L & ->).
  apply readU8_inv in T; [|auto|unfold in16; lia]. destruct T as (V2 & A2 & L2 & ->).
  exists vl. split; [exact A|]. split; [exact V|].
  destruct (Z.eqb_spec tag 0) as [->|N0]; [|destruct (Z.eqb_spec tag 1) as [->|N1]; [|discriminate H]].
  - bx H n o3 R. apply readU32_inv in R; [|auto|unfold in16; lia]. destruct R as (V3 & A3 & L3 & ->). left. exists n.
    split; [change (0 :: le 4 n) with ([0] ++ le 4 n); rewrite at_app; auto|]. split; [exact V3|].
    bx H oo o4 G. apply get_off_inv in G. destruct G as [-> ->]. bx H f o5 Lp. apply ret_inv in H. destruct H as [_ ->]. rewrite loop_iter in Lp.
    destruct (args_run e read_arg (Z.to_nat n) W (fun o1 r o2 J => read_arg_steps e o1 r o2 W J) (o + 4 + 1 + 4) f o5 ltac:(lia) Lp) as [_ Rn].
    rewrite Z2Nat.id in Rn by lia. replace (o + 9) with (o + 4 + 1 + 4) by lia. exact Rn.
  - bx H oo o3 G. bx H n o4 B. pinv. apply bytes_inv in B; [|auto|unfold in16; lia]. destruct B as (V3 & A3 & -> & _).
    right. exists n. split; [change (1 :: le 4 n) with ([1] ++ le 4 n); rewrite at_app; auto|]. split; [exact V3|]. apply (f_equal u32). lia.
Qed.

Lemma stored_type e o r o' : read_stored e o = (Ret r, o') -> 1 <= ttype (fst r) <= 4.
Proof.
  unfold read_stored. intros H. bx H tag o1 R. bx H x o2 X. bx H oo o3 G. clear R X G.
  repeat match type of H with (if ?b then _ else _) _ _ = _ => destruct b end; try discriminate H; pinv;
    cbn [fst ttype]; unfold TargetStoredByHash, TargetStoredByName, TargetStoredByPackageHash, TargetStoredByPackageName; lia.
Qed.

(** kinds of target in the bytes and in the parsed transaction *)
Definition kind (tt_ : Z) : Z := if tt_ =? TargetNative then 0 else if tt_ =? TargetSession then 2 else 1.

Lemma target_inv e o r o' : wf e -> in16 o -> at_ e (o - 2) (le 2 1) -> read_target e o = (Ret r, o') ->
  target_layout (mem e) (o - 2) o' (kind (ttype (fst r))).
Proof.
  intros W I K H. pose proof (wf_max e W). unfold read_target in H. unfold in16 in *.
  bx H l o1 R. bx H tm o2 M. bx H base o3 G. bx H u o4 F0. bx H tag o5 T.
  apply readU32_inv in R; [|auto|exact I]. destruct R as (V & A & L & ->).
  apply metadata_inv in M; [|auto|unfold in16; lia]. destruct M as (tab & Tb & -> & -> & L1 & I1 & Nf).
  apply get_off_inv in G. destruct G as [-> ->]. unfold in16 in *. cbn [meta_of fields_size] in *. rewrite !foff_off in *.
  apply field_inv in F0. destruct F0 as [F0 ->]. apply field0 in F0; [|exact I1|apply (off_word e _ _ _ Tb)].
  apply readU8_inv in T; [|auto|exact I1]. destruct T as (V2 & A2 & L2 & ->).
  assert (Kl : here (mem e) (o - 2) (le 2 1 ++ le 4 l)).
  { apply at_here. rewrite at_app, le_length. cbn [Z.of_nat Pos.of_succ_nat Pos.succ]. replace (o - 2 + 2) with o by lia. auto. }
  unfold target_layout. exists l, tab. split; [exact Kl|]. replace (o - 2 + 6) with (o + 4) by lia.
  split; [exact Tb|]. split; [exact F0|].
  destruct (Z.eqb_spec tag 0) as [->|N0]; [|destruct (Z.eqb_spec tag 1) as [->|N1]; [|destruct (Z.eqb_spec tag 2) as [->|N2]; [|discriminate H]]].
  - bx H u2 o6 F1. apply field_inv in F1. destruct F1 as [F1 ->]. apply ret_inv in H. destruct H as [-> ->].
    change (kind (ttype (fst (mkTarget TargetNative 0 0 0, 0)))) with 0. split; [apply at_here; exact A2|]. left. split; [reflexivity|]. split; [reflexivity|].
    rewrite u32_small in F1 by lia. unfold fin. lia.
  - bx H u2 o6 F1. bx H im o7 M2. bx H st o8 Q. bx H rt o9 RT. apply ret_inv in H. destruct H as [-> ->].
    apply field_inv in F1. destruct F1 as [F1 ->]. apply field_eq in F1; [|exact I1|apply (off_word e _ _ _ Tb)|lia].
    apply metadata_inv in M2; [|auto|unfold in16; lia]. destruct M2 as (inner & Ti & _).
    apply stored_type in Q.
    replace (kind (ttype (fst st))) with 1 by (unfold kind, TargetNative, TargetSession;
      destruct (Z.eqb_spec (ttype (fst st)) 0); [lia|]; destruct (Z.eqb_spec (ttype (fst st)) 5); [lia|reflexivity]).
    split; [apply at_here; exact A2|]. right; left. split; [reflexivity|]. split; [lia|]. exists inner. exact Ti.
  - bx H u2 o6 F1. bx H b o7 B. bx H rt o8 RT. bx H ln o9 BY. apply ret_inv in H. destruct H as [-> ->].
    apply field_inv in F1. destruct F1 as [F1 ->]. apply field_eq in F1; [|exact I1|apply (off_word e _ _ _ Tb)|lia].
    change (kind (ttype (fst (mkTarget TargetSession 0 0 0, 0)))) with 2. split; [apply at_here; exact A2|]. right; right. split; [reflexivity|lia].
Qed.

Lemma sanity_inv a ep t e o r o' : in16 o -> check_sanity_native_transfer a ep t e o = (Ret r, o') ->
  o' = o /\ (ep = EntryPointCustom \/ t = TargetNative \/ t = TargetSession).
Proof.
  intros I H. unfold check_sanity_native_transfer in H. bx H s o1 G. apply get_off_inv in G. destruct G as [-> ->].
  bx H u o2 C. bx H u2 o3 Q. unfold set_off in H. inversion H; subst. split; [apply u16_small; exact I|].
  clear Q H I. pinv. lia.
Qed.

Lemma entry_inv a t e o r o' : wf e -> in16 o -> at_ e (o - 2) (le 2 2) -> read_entry_point a t e o = (Ret r, o') ->
  entry_layout (mem e) (o - 2) o' (fst (fst (fst r))) /\ (kind t = 1 -> fst (fst (fst r)) = 1) /\ in16 o'.
Proof.
  intros W I K H. pose proof (wf_max e W). unfold read_entry_point in H. unfold in16 in *.
  bx H l o1 R. bx H tm o2 M. bx H base o3 G. bx H u o4 F0. bx H tag o5 T. bx H u1 o6 C. bx H pl o7 P. bx H u2 o8 F1. bx H x o9 X. bx H u3 o10 Q.
  apply ret_inv in H. destruct H as [-> ->]. cbn [fst].
  apply readU32_inv in R; [|auto|exact I]. destruct R as (V & A & L & ->).
  apply metadata_inv in M; [|auto|unfold in16; lia]. destruct M as (tab & Tb & -> & -> & L1 & I1 & Nf).
  apply get_off_inv in G. destruct G as [-> ->]. unfold in16 in *. cbn [meta_of fields_size] in *. rewrite !foff_off in *.
  apply field_inv in F0. destruct F0 as [F0 ->]. apply field0 in F0; [|exact I1|apply (off_word e _ _ _ Tb)].
  apply readU8_inv in T; [|auto|exact I1]. destruct T as (V2 & A2 & L2 & ->).
  apply field_inv in F1. destruct F1 as [F1 ->].
  assert (o6 = first (o + 4) tab + 1 /\ tag <= 12) as [-> Tg] by (clear P; pinv; unfold EntryPointBurn in *; lia).
  assert (o9 = o7) as -> by (clear - X; pinv; auto).
  set (b := first (o + 4) tab) in *.
  assert (Kl : here (mem e) (o - 2) (le 2 2 ++ le 4 l)).
  { apply at_here. rewrite at_app, le_length. cbn [Z.of_nat Pos.of_succ_nat Pos.succ]. replace (o - 2 + 2) with o by lia. auto. }
  assert (I7 : 0 <= o7 < 65536 /\ (if tag =? 1 then off tab 1 = 1 /\ exists nl, word nl /\ here (mem e) (b + 1) (le 4 nl) /\ o7 = (b + 5 + nl) mod 2 ^ 32
           else o7 = b + 1)).
  { unfold EntryPointCustom in P. destruct (Z.eqb_spec tag 1) as [->|N].
    - bx P u5 q1 G1. bx P oo q2 G2. bx P nl q3 B. apply ret_inv in P. destruct P as [-> ->].
      apply field_inv in G1. destruct G1 as [G1 ->]. apply field_eq in G1; [|exact I1|apply (off_word e _ _ _ Tb)|lia].
      apply get_off_inv in G2. destruct G2 as [-> ->].
      apply bytes_inv in B; [|auto|unfold in16; lia]. destruct B as (Vn & An & -> & Ln & In). split; [exact In|]. split; [lia|].
      exists nl. split; [exact Vn|]. split; [apply at_here; exact An|]. unfold u32. f_equal. lia.
    - apply ret_inv in P. destruct P as [_ ->]. split; [lia|reflexivity]. }
  destruct I7 as [I7 Y]. rewrite u32_small in F1 by lia.
  apply sanity_inv in Q; [|exact I7]. destruct Q as [-> Q].
  assert (KT : kind t = 1 -> tag = 1).
  { unfold kind, EntryPointCustom in *. destruct (Z.eqb_spec t TargetNative), (Z.eqb_spec t TargetSession); try discriminate; lia. }
  split; [|split; [exact KT|exact I7]].
  unfold entry_layout. exists l, tab. split; [exact Kl|]. replace (o - 2 + 6) with (o + 4) by lia. fold b.
  split; [exact Tb|]. split; [exact F0|]. split; [apply at_here; exact A2|]. split; [lia|]. split; [unfold fin; fold b; lia|exact Y].
Qed.

Lemma scheduling_inv e o r o' : wf e -> in16 o -> at_ e (o - 2) (le 2 3) -> read_scheduling e o = (Ret r, o') ->
  exists sl tab, here (mem e) (o - 2) (le 2 3 ++ le 4 sl) /\ tbl_at (mem e) (o + 4) tab /\ off tab 0 = 0 /\ here (mem e) (first (o + 4) tab) [0] /\
    fin (o + 4) tab = first (o + 4) tab + 1 /\ o' = fin (o + 4) tab.
Proof.
  intros W I K H. pose proof (wf_max e W). unfold read_scheduling in H. unfold in16 in *.
  bx H l o1 R. bx H tm o2 M. bx H base o3 G. bx H u o4 F0. bx H tag o5 T. bx H u1 o6 C. 
  apply readU32_inv in R; [|auto|exact I]. destruct R as (V & A & L & ->).
  apply metadata_inv in M; [|auto|unfold in16; lia]. destruct M as (tab & Tb & -> & -> & L1 & I1 & Nf).
  apply get_off_inv in G. destruct G as [-> ->]. unfold in16 in *. cbn [meta_of fields_size] in *. rewrite !foff_off in *.
  apply field_inv in F0. destruct F0 as [F0 ->]. apply field0 in F0; [|exact I1|apply (off_word e _ _ _ Tb)].
  apply readU8_inv in T; [|auto|exact I1]. destruct T as (V2 & A2 & L2 & ->).
  assert (o6 = first (o + 4) tab + 1 /\ tag = 0) as [-> ->] by (clear H; pinv; lia).
  apply field_inv in H. destruct H as [F1 ->]. rewrite u32_small in F1 by lia.
  exists l, tab. split.
  { apply at_here. rewrite at_app, le_length. cbn [Z.of_nat Pos.of_succ_nat Pos.succ]. replace (o - 2 + 2) with o by lia. auto. }
  split; [exact Tb|]. split; [exact F0|]. split; [apply at_here; exact A2|]. unfold fin. lia.
Qed.

Lemma body_inv e o a t nt ep o' : wf e -> in16 o -> read_txV1_body e o = (Ret (a, (t, nt), ep), o') ->
  exists aa ta sa, body_layout (mem e) o aa ta sa o' (kind (ttype t)) (fst (fst (fst ep))) /\ (kind (ttype t) = 1 -> fst (fst (fst ep)) = 1) /\ in16 o' /\
    (calm e -> o <= blen e + 64 -> o < aa < ta /\ ta < sa < o' /\ o' <= blen e + 64).
Proof.
  intros W I H. pose proof (wf_max e W). unfold read_txV1_body in H.
  bx H n o1 R. bx H u1 o2 C. bx H u2 o3 K0. bx H a' o4 AR. bx H u3 o5 K1. bx H t' o6 TG. bx H u4 o7 K2. bx H ep' o8 EP. bx H u5 o9 K3. bx H u6 o10 SC.
  apply ret_inv in H. destruct H as [E ->]. inversion E; subst; clear E.
  apply readU32_inv in R; auto. destruct R as (V & A & L & ->).
  assert (o2 = o + 4 /\ n = 4) as [-> ->] by (clear - C; pinv; lia).
  unfold in16 in I.
  apply key_inv in K0; [|auto|unfold in16; lia]. destruct K0 as (A0 & -> & L0 & I0).
  assert (I4 : in16 o4) by (eapply safe_ok; [|exact W|exact I0|exact AR]; eauto with safe).
  assert (Fa : calm e -> o + 6 <= o4) by (intros C'; apply (fw_args _ _ _ _ W C') in AR; cbn [slack] in *; lia).
  apply args_inv in AR; [|auto|exact I0]. destruct AR as (al & Aa & Va & D).
  apply key_inv in K1; [|auto|exact I4]. destruct K1 as (A1 & -> & L1 & I5).
  assert (I6 : in16 o6) by (eapply safe_ok; [|exact W|exact I5|exact TG]; eauto with safe).
  assert (Ft : calm e -> o4 + 2 <= o6) by (intros C'; apply (fw_target _ _ _ _ W C') in TG; cbn [slack] in *; lia).
  apply target_inv in TG; [|auto|exact I5|replace (o4 + 2 - 2) with o4 by lia; exact A1].
  replace (o4 + 2 - 2) with o4 in TG by lia. cbn [fst] in TG, EP.
  apply key_inv in K2; [|auto|exact I6]. destruct K2 as (A2 & -> & L2 & I7).
  assert (Fe : calm e -> o6 + 2 <= o8) by (intros C'; apply (fw_entry _ _ _ _ _ _ W C') in EP; cbn [slack] in *; lia).
  apply entry_inv in EP; [|auto|exact I7|replace (o6 + 2 - 2) with o6 by lia; exact A2]. destruct EP as (EL & KE & I8).
  replace (o6 + 2 - 2) with o6 in EL by lia.
  apply key_inv in K3; [|auto|exact I8]. destruct K3 as (A3 & -> & L3 & I9).
  assert (I10 : in16 o10) by (eapply safe_ok; [|exact W|exact I9|exact SC]; eauto with safe).
  assert (Fs : calm e -> o8 + 2 <= o10 <= blen e + 64) by (intros C'; apply (fw_scheduling _ _ _ _ W C') in SC; cbn [slack] in *; lia).
  apply scheduling_inv in SC; [|auto|exact I9|replace (o8 + 2 - 2) with o8 by lia; exact A3].
  destruct SC as (sl & tab & S1 & S2 & S3 & S4 & S5 & S6). replace (o8 + 2 - 2) with o8 in S1 by lia. replace (o8 + 2 + 4) with (o8 + 6) in * by lia.
  exists o4, o6, o8. split; [|split; [exact KE|split; [exact I10|]]];
    [|intros Cm _; specialize (Fa Cm); specialize (Ft Cm); specialize (Fe Cm); specialize (Fs Cm); lia].
  exists al, sl, tab. split.
  { apply at_here. rewrite !at_app, !le_length. cbn [Z.of_nat Pos.of_succ_nat Pos.succ].
    split; [exact A|]. split; [exact A0|]. exact Aa. }
  split.
  { destruct D as [(n & D1 & D2 & D3)|(n & D1 & D2 & D3)]; [left|right]; exists n; rewrite <- at_here; replace (o + 10) with (o + 4 + 2 + 4) by lia.
    - split; [exact D1|]. split; [exact D2|]. replace (o + 15) with (o + 4 + 2 + 9) by lia. exact D3.
    - split; [exact D1|]. split; [exact D2|]. rewrite D3. unfold u32. f_equal. lia. }
  auto 10.
Qed.

(** * The whole transaction *)
Lemma v1_inv e v o' : wf e -> parser_read_transactionV1 e 0 = (Ret v, o') ->
  (exists top pay b a t s, layout_at (mem e) top pay b a t s (kind (ttype (ttarget v))) (entry_point_type v) o' /\
    (calm e -> forward top pay b a t s o')) /\
  (kind (ttype (ttarget v)) = 1 -> entry_point_type v = 1) /\
  exists top pay, tbl_at (mem e) 0 top /\ off top 0 = 0 /\ off top 1 = 32 /\ tbl_at (mem e) (first 0 top + 32) pay /\
    tmeta v = meta_of top /\ tpayload_meta v = meta_of pay /\ fin (first 0 top + 32) pay + 4 <= blen e.
Proof.
  intros W H. pose proof (wf_max e W) as Mx. unfold parser_read_transactionV1 in H.
  bx H n oN N. bx H u oC C. assert (oC = 0) as -> by (clear - N C; pinv; auto). clear N C.
  bx H m o1 M. apply metadata_inv in M; [|auto|unfold in16; lia]. destruct M as (top & Tt & -> & -> & L1 & I1 & Nt).
  cbn [meta_of metadata_size fields_size] in H. rewrite !foff_off in H.
  replace (8 + 6 * zlen (t_offs top)) with (first 0 top) in H by (unfold first; change (S.len (t_offs top)) with (zlen (t_offs top)); lia).
  bx H u1 o2 F0. bx H hh o3 RH. bx H u2 o4 F1.
  apply field_inv in F0. destruct F0 as [F0 ->]. apply field0 in F0; [|exact I1|apply (off_word e _ _ _ Tt)].
  assert (B1 : first 0 top <= 68) by (unfold first; change (S.len (t_offs top)) with (zlen (t_offs top)); lia).
  assert (o3 = first 0 top + 32) as ->.
  { clear - RH B1 I1. unfold read_hash in RH. pinv. apply u16_small. unfold in16 in I1. lia. }
  apply field_inv in F1. destruct F1 as [F1 ->]. apply field_eq in F1; [|exact I1|apply (off_word e _ _ _ Tt)|unfold in16 in I1; lia].
  set (p := first 0 top + 32) in *.
  bx H pm o5 M2. apply metadata_inv in M2; [|auto|unfold in16 in *; subst p; lia]. destruct M2 as (pay & Tp & -> & -> & L2 & I2 & Np).
  assert (PF : payload_first (meta_of top) (meta_of pay) = first p pay).
  { unfold payload_first. rewrite foff_off. cbn [meta_of metadata_size]. subst p. unfold first in *.
    change (S.len (t_offs top)) with (zlen (t_offs top)) in *. change (S.len (t_offs pay)) with (zlen (t_offs pay)) in *.
    rewrite u32_small; lia. }
  assert (B2 : first p pay < 1000).
  { subst p. unfold first in *. change (S.len (t_offs top)) with (zlen (t_offs top)) in *. change (S.len (t_offs pay)) with (zlen (t_offs pay)) in *. lia. }
  rewrite PF in H. cbv zeta in H. cbn [meta_of fields_size] in H. 
  bx H u3 o6 G0. bx H h o7 HD. bx H u4 o8 G5. bx H b o9 BD. bx H u5 o10 GS. bx H u6 o11 F2. bx H na o12 AP. bx H u7 o13 FS. bx H x o14 X.
  apply field_inv in G0. destruct G0 as [_ ->]. apply field_inv in G5. destruct G5 as [_ ->].
  assert (Fh : calm e -> first p pay <= o7 <= blen e + 64) by (intros C'; apply (fw_header _ _ _ _ _ _ W C') in HD; unfold in16 in I2; cbn [slack] in *; lia).
  apply header_inv in HD; [|auto|unfold in16 in I2; lia|exact PF|intros k; rewrite foff_off; apply (off_word e _ _ _ Tp)].
  destruct HD as (nw & cl & pri & Hn & H0 & H1 & H2 & H3 & Ac & Wc & (ini & who & T1 & T2 & T3 & T4 & T5 & T6) & H4 & H5 & H6 & H7 & H8 & H9 & H10 & H11 & H12 & H13 & _).
  rewrite !foff_off in *. destruct b as [[a [t nt]] ep]. destruct ep as [[[et ep1] ep2] ne].
  assert (o7 + 4 <= blen e) as L7.
  { clear - BD W H13. unfold read_txV1_body in BD. bx BD n o1 R. apply readU32_inv in R; auto. tauto. }
  apply body_inv in BD; [|auto|exact H13]. destruct BD as (aa & ta & sa & BL & KE & I9 & FB). cbn [fst] in *.
  apply field_inv in GS. destruct GS as [GS ->]. apply field_inv in F2. destruct F2 as [F2 ->].
  rewrite u32_small in GS by (unfold in16 in I2; lia).
  assert (exists k, at_ e o9 (le 4 k) /\ word k /\ o9 + 4 <= blen e) as (k & Ak & Wk & Lk).
  { clear - AP W I9. unfold read_txV1_approvals in AP. bx AP k q R. apply readU32_inv in R; [|auto|exact I9]. destruct R as (V & A & L & _). exists k. auto. }
  assert (Fq : calm e -> o9 <= blen e + 64 -> o9 < o12).
  { clear - AP W I9. intros C' LB. unfold read_txV1_approvals in AP. bx AP k q R. apply readU32_inv in R; [|auto|exact I9]. destruct R as (_ & _ & L & ->).
    unfold in16 in I9. pose proof (fw_approvals_rest k e (o9 + 4) _ _ W C' ltac:(cbn [slack]; lia) AP). lia. }
  assert (Il : in16 o12) by (eapply safe_ok; [|exact W|exact I9|exact AP]; eauto with safe).
  apply field_inv in FS. destruct FS as [FS ->]. rewrite u32_small in FS by (unfold in16 in I1; lia).
  assert (o14 = o12) as -> by (clear - X; pinv; auto).
  apply ret_inv in H. destruct H as [-> ->]. cbn [ttarget entry_point_type tmeta tpayload_meta].
  assert (E9 : o9 = fin p pay) by (unfold fin; lia).
  split; [|split; [exact KE|]].
  - exists top, pay, o7, aa, ta, sa. split;
      [|intros Cm; specialize (Fh Cm); specialize (FB Cm ltac:(lia)); specialize (Fq Cm ltac:(lia));
        unfold forward; cbv zeta; fold p; rewrite <- E9; unfold in16 in *; unfold first in *; change (S.len (t_offs top)) with (zlen (t_offs top)) in *;
        change (S.len (t_offs pay)) with (zlen (t_offs pay)) in *; lia].
    split; [exact Tt|]. split; [exact F0|]. split; [unfold p in F1; lia|]. cbv zeta. fold p. split; [exact Tp|].
    split; [|split; [rewrite <- E9; exact BL|]].
    + destruct (H10 ltac:(lia)) as (price & X1 & X2 & X3 & _). unfold header_layout. cbv zeta. split; [exact H0|].
      exists ini, who. split; [exact T1|]. split; [exact T2|]. split; [exact T3|]. split; [exact T4|]. split; [exact T5|]. rewrite T6.
      split; [exact H1|]. split; [lia|]. split; [lia|]. exists cl. rewrite H3.
      replace (first p pay + (36 + nw)) with (first p pay + 36 + nw) by lia.
      split; [apply at_here; exact Ac|]. split; [exact Wc|].
      replace (first p pay + 36 + nw + 4 + cl) with (first p pay + 40 + nw + cl) by lia.
      unfold place. change ((first p pay + off pay 4) mod 2 ^ 32) with (u32 (first p pay + off pay 4)).
      change ((first p pay + off pay 5) mod 2 ^ 32) with (u32 (first p pay + off pay 5)). rewrite H4, H11.
      split; [reflexivity|]. split; [change (S.len (mem e)) with (zlen (mem e)); rewrite <- (wf_len e W); exact H5|].
      exists pri, price. auto 10.
    + split; [unfold place; change ((first 0 top + off top 2) mod 2 ^ 32) with (u32 (first 0 top + off top 2)); lia|].
      exists k. rewrite <- E9. split; [apply at_here; exact Ak|]. split; [exact Wk|]. unfold fin. lia.
  - exists top, pay. fold p. rewrite <- E9. unfold p in F1. split; [exact Tt|]. split; [exact F0|]. split; [lia|]. auto 10.
Qed.
