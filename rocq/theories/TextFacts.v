(** The texts produced by the model meet the text specification. *)
From Verif Require Import Base Zxlib Crypto Utils RuntimeArg DeployUI BaseFacts Spec SpecText Exec ReaderFacts.
Import S ST.

(** * Decimal *)
Lemma num_app a b : num (a ++ b) = fold_left (fun x c => 10 * x + (c - 48)) b (num a).
Proof. unfold num; rewrite fold_left_app; reflexivity. Qed.
Lemma num_snoc a c : num (a ++ [c]) = 10 * num a + (c - 48).
Proof. rewrite num_app; reflexivity. Qed.
Lemma num_nonneg s : Forall digit s -> 0 <= num s.
Proof.
  induction s as [|c s IH] using rev_ind; intros F; [unfold num; cbn; lia|].
  rewrite num_snoc. apply Forall_app in F; destruct F as [F1 F2]. inversion F2; subst. unfold digit in *.
  specialize (IH F1); lia.
Qed.

Lemma decimal_small n : 0 <= n < 10 -> decimal n [48 + n].
Proof.
  intros H. unfold decimal. split; [discriminate|]. split; [|split].
  - constructor; [unfold digit; lia | constructor].
  - unfold num; cbn [fold_left]; lia.
  - cbn [hd]. intros ->; reflexivity.
Qed.

Lemma decimal_snoc n s : 1 <= n / 10 -> 0 <= n -> decimal (n / 10) s -> decimal n (s ++ [48 + n mod 10]).
Proof.
  intros H Hn (E & F & V & Z0). unfold decimal. repeat split.
  - destruct s; discriminate.
  - apply Forall_app; split; auto. repeat constructor; unfold digit; lia.
  - rewrite num_snoc, V; lia.
  - destruct s as [|c s]; [contradiction|]. cbn [hd app]. intros ->. cbn [hd] in Z0.
    rewrite (Z0 eq_refl) in V. unfold num in V; cbn in V. lia.
Qed.

Lemma dec_fuel_spec f : forall n acc, 0 <= n < 10 ^ Z.of_nat (Datatypes.S f) ->
  exists s, dec_fuel (Datatypes.S f) n acc = s ++ acc /\ decimal n s.
Proof.
  induction f as [|f IH]; intros n acc H.
  - cbn [dec_fuel]. change (10 ^ Z.of_nat 1) with 10 in H.
    replace (n / 10 =? 0) with true by lia. exists [48 + n]; split.
    + replace (n mod 10) with n by lia. reflexivity.
    + apply decimal_small; lia.
  - remember (Datatypes.S f) as g. cbn [dec_fuel]. destruct (n / 10 =? 0) eqn:E.
    + exists [48 + n]; split; [replace (n mod 10) with n by lia; reflexivity | apply decimal_small; lia].
    + destruct (IH (n / 10) ((48 + n mod 10) :: acc)) as (s & Es & Ds).
      { rewrite Nat2Z.inj_succ, Z.pow_succ_r in H by lia. split; [lia|].
        apply Z.div_lt_upper_bound; lia. }
      exists (s ++ [48 + n mod 10]); split.
      * rewrite Es, <- app_assoc; reflexivity.
      * apply decimal_snoc; auto; lia.
Qed.

Lemma dec_decimal n : 0 <= n -> decimal n (dec n).
Proof.
  intros H. unfold dec.
  destruct (dec_fuel_spec (Z.to_nat (Z.log2 n)) n []) as (s & Es & Ds).
  - split; auto. destruct (Z.eq_dec n 0) as [->|N]; [cbn; lia|].
    pose proof (Z.log2_spec n ltac:(lia)) as [_ L]. pose proof (Z.log2_nonneg n).
    rewrite Nat2Z.inj_succ, Z2Nat.id by lia.
    eapply Z.lt_le_trans; [exact L|]. apply Z.pow_le_mono_l; lia.
  - rewrite app_nil_r in Es. rewrite Es; exact Ds.
Qed.

Lemma decimal_unique n : forall s t, decimal n s -> decimal n t -> s = t.
Proof.
  assert (K : forall s t, Forall digit s -> Forall digit t -> List.length s = List.length t ->
                          num s = num t -> s = t).
  { induction s as [|c s IH] using rev_ind; intros t Fs Ft L N.
    - destruct t; [reflexivity | discriminate].
    - destruct (exists_last (l := t)) as (t' & d & ->).
      { intros ->. rewrite app_length in L; cbn in L; lia. }
      rewrite !num_snoc in N. rewrite !app_length in L; cbn in L.
      apply Forall_app in Fs, Ft; destruct Fs as [Fs Fc], Ft as [Ft Fd].
      inversion Fc; inversion Fd; subst. unfold digit in *.
      assert (c = d /\ num s = num t') as [-> Nst] by lia.
      rewrite (IH t'); auto; lia. }
  assert (B : forall s, Forall digit s -> num s < 10 ^ zlen s).
  { induction s as [|c s IH] using rev_ind; intros F; [unfold num; cbn; lia|].
    apply Forall_app in F; destruct F as [F Fc]; inversion Fc; subst; unfold digit in *.
    rewrite num_snoc, zlen_app, Z.pow_add_r by apply zlen_nonneg.
    change (10 ^ zlen [c]) with 10. specialize (IH F); lia. }
  assert (C : forall c s, digit c -> c <> 48 -> Forall digit s -> 10 ^ zlen s <= num (c :: s)).
  { intros c s Dc Nc; induction s as [|x s IH] using rev_ind; intros F.
    - unfold num; cbn; unfold digit in *; lia.
    - apply Forall_app in F; destruct F as [F Fc]; inversion Fc; subst; unfold digit in *.
      rewrite app_comm_cons, num_snoc, zlen_app, Z.pow_add_r by apply zlen_nonneg.
      change (10 ^ zlen [x]) with 10. specialize (IH F); lia. }
  assert (G : forall s, decimal n s -> s = [48] \/ (exists c r, s = c :: r /\ c <> 48)).
  { intros s (E & F & V & Z0). destruct s as [|c r]; [contradiction|]. cbn [hd] in Z0.
    destruct (Z.eq_dec c 48); [left; auto | right; eauto]. }
  assert (X : forall s t, decimal n s -> decimal n t -> (List.length s <= List.length t)%nat -> s = t).
  { intros s t Ds Dt L. pose proof Ds as (Es & Fs & Vs & _). pose proof Dt as (Et & Ft & Vt & _).
    destruct (Nat.eq_dec (List.length s) (List.length t)) as [E|NE]; [apply K; auto; lia|].
    exfalso. destruct (G t Dt) as [->|(c & r & -> & Nc)].
    - destruct s; [contradiction|cbn in *; lia].
    - inversion Ft; subst. pose proof (C c r H1 Nc H2) as Lo.
      pose proof (B s Fs) as Hi.
      assert (10 ^ zlen s <= 10 ^ zlen r).
      { apply Z.pow_le_mono_r; [lia|]. unfold zlen; cbn in *; lia. }
      lia. }
  intros s t Ds Dt. destruct (Nat.le_ge_cases (List.length s) (List.length t)); [|symmetry]; auto.
Qed.

Lemma decimal_inj n m s : decimal n s -> decimal m s -> n = m.
Proof. intros (_ & _ & A & _) (_ & _ & B & _); congruence. Qed.

Lemma dec_inj n m : 0 <= n -> 0 <= m -> dec n = dec m -> n = m.
Proof.
  intros Hn Hm E. pose proof (dec_decimal n Hn) as A. pose proof (dec_decimal m Hm) as B.
  rewrite E in A. eapply decimal_inj; eauto.
Qed.

(** numerals of numbers below 10^k have at most k digits *)
Lemma dec_len n k : 0 <= n -> (0 < k)%nat -> n < 10 ^ Z.of_nat k -> zlen (dec n) <= Z.of_nat k.
Proof.
  intros H K B. destruct k as [|k]; [lia|].
  assert (L : forall f m acc, 0 <= m < 10 ^ Z.of_nat (Datatypes.S f) ->
              zlen (dec_fuel (Datatypes.S f) m acc) <= Z.of_nat (Datatypes.S f) + zlen acc).
  { induction f as [|f IH]; intros m acc Hm.
    - cbn [dec_fuel]. change (10 ^ Z.of_nat 1) with 10 in Hm.
      replace (m / 10 =? 0) with true by lia. rewrite zlen_cons; lia.
    - remember (Datatypes.S f) as g. cbn [dec_fuel]. destruct (m / 10 =? 0) eqn:E.
      + rewrite zlen_cons; lia.
      + rewrite Nat2Z.inj_succ, Z.pow_succ_r in Hm by lia.
        specialize (IH (m / 10) ((48 + m mod 10) :: acc)).
        rewrite zlen_cons in IH.
        assert (0 <= m / 10 < 10 ^ Z.of_nat g) by (split; [lia | apply Z.div_lt_upper_bound; lia]).
        specialize (IH H0). lia. }
  destruct (dec_fuel_spec k n []) as (s & Es & Ds); [lia|].
  rewrite app_nil_r in Es.
  pose proof (dec_decimal n H) as D. rewrite (decimal_unique n _ _ D Ds), <- Es.
  specialize (L k n [] ltac:(lia)). cbn in L. exact L.
Qed.

(** * Grouping *)
Fixpoint gl (r : list Z) (step : Z) (t : list Z) : list Z :=
  match r with
  | [] => t
  | d :: r' => if step =? 3 then gl r' 1 (d :: 32 :: t) else gl r' (step + 1) (d :: t)
  end.

Lemma sep_loop p : forall t step, 1 <= step <= 3 ->
  separators_loop (List.length p) step (p ++ t) = gl (rev p) step t.
Proof.
  induction p as [|d p IH] using rev_ind; intros t step Hs.
  - reflexivity.
  - rewrite app_length, Nat.add_comm, rev_unit; cbn [List.length Nat.add].
    cbn [separators_loop gl].
    assert (M : (step mod 3 =? 0) = (step =? 3)) by lia. rewrite M.
    destruct (step =? 3).
    + replace (insert_at ((p ++ [d]) ++ t) (Datatypes.S (List.length p)) 32) with (p ++ (d :: 32 :: t)).
      * apply IH; lia.
      * unfold insert_at.
        replace (Datatypes.S (List.length p)) with (List.length (p ++ [d])) by (rewrite app_length; cbn; lia).
        rewrite firstn_app, firstn_all, Nat.sub_diag, skipn_app, skipn_all, Nat.sub_diag.
        cbn [firstn skipn app]. rewrite app_nil_r, <- app_assoc. reflexivity.
    + rewrite <- app_assoc. apply IH; lia.
Qed.

Lemma group_rev_app3 a b c r : r <> [] -> group_rev (a :: b :: c :: r) = a :: b :: c :: 32 :: group_rev r.
Proof. destruct r; [contradiction | reflexivity]. Qed.

Lemma gl_group n : forall r d t, (List.length r <= n)%nat ->
  gl r 1 (d :: t) = rev (group_rev (d :: r)) ++ t
  /\ forall d2, gl r 2 (d2 :: d :: t) = rev (group_rev (d :: d2 :: r)) ++ t
  /\ forall d3, gl r 3 (d3 :: d2 :: d :: t) = rev (group_rev (d :: d2 :: d3 :: r)) ++ t.
Proof.
  induction n as [|n IH]; intros r d t L.
  - destruct r; [|cbn in L; lia]. cbn. auto.
  - destruct r as [|x r]; [cbn; auto|]. cbn in L.
    destruct (IH r d t ltac:(lia)) as (_ & I2).
    cbn [gl Z.eqb Pos.eqb Z.add Pos.add Pos.succ]. split; [|intros d2; split; [|intros d3]].
    + apply I2.
    + apply I2.
    + destruct (IH r x (32 :: d3 :: d2 :: d :: t) ltac:(lia)) as (I1 & _).
      rewrite I1. rewrite (group_rev_app3 d d2 d3 (x :: r)) by discriminate.
      cbn [rev]. rewrite <- !app_assoc. reflexivity.
Qed.

Lemma separators_group s : s <> [] -> add_thousands_separators s = group s.
Proof.
  intros H. destruct (exists_last H) as (p & d & ->).
  unfold add_thousands_separators. rewrite app_length; cbn [List.length].
  replace (List.length p + 1 - 1)%nat with (List.length p) by lia.
  rewrite sep_loop by lia.
  destruct (gl_group (List.length (rev p)) (rev p) d [] (Nat.le_refl _)) as (E & _).
  rewrite E, app_nil_r. unfold group. rewrite rev_unit. reflexivity.
Qed.

Definition nosp (c : Z) : bool := negb (c =? 32).
Lemma group_rev_nosp r : Forall digit r -> filter nosp (group_rev r) = r.
Proof.
  assert (F : forall l, Forall digit l -> filter nosp l = l).
  { induction 1 as [|c l Hc _ IH]; [reflexivity|]. cbn [filter]. unfold nosp, digit in *.
    destruct (c =? 32) eqn:E; [lia|]. cbn [negb]. f_equal; exact IH. }
  remember (List.length r) as n eqn:L. revert r L.
  induction n as [n IH] using lt_wf_ind; intros r L D.
  destruct r as [|a [|b [|c [|d r]]]]; try (apply F; exact D).
  rewrite group_rev_app3 by discriminate.
  assert (D' : Forall digit (d :: r)) by (inversion D; inversion H2; inversion H6; auto).
  inversion D as [|? ? Ha D1]; inversion D1 as [|? ? Hb D2]; inversion D2 as [|? ? Hc D3]; subst.
  cbn [filter]. unfold digit in *.
  replace (nosp a) with true by (unfold nosp; lia). replace (nosp b) with true by (unfold nosp; lia).
  replace (nosp c) with true by (unfold nosp; lia). cbn [nosp Z.eqb Pos.eqb negb].
  rewrite (IH (List.length (d :: r))); auto. cbn; lia.
Qed.

Lemma filter_rev {A} (f : A -> bool) l : filter f (rev l) = rev (filter f l).
Proof.
  induction l as [|x l IH]; [reflexivity|]. cbn [rev filter]. rewrite filter_app, IH. cbn [filter].
  destruct (f x); cbn [rev]; [reflexivity | apply app_nil_r].
Qed.

Lemma group_nosp s : Forall digit s -> filter nosp (group s) = s.
Proof.
  intros H. unfold group. rewrite filter_rev, group_rev_nosp by (apply Forall_rev; exact H).
  apply rev_involutive.
Qed.

(** Different amounts have different texts. *)
Lemma motes_text_inj n m s : motes_text n s -> motes_text m s -> n = m.
Proof.
  intros (a & (A1 & A2 & A3 & A4) & ->) (b & (B1 & B2 & B3 & B4) & E).
  apply app_inv_tail in E. apply (f_equal (filter nosp)) in E.
  rewrite !group_nosp in E by auto. congruence.
Qed.

Lemma zlen_group_rev r : zlen (group_rev r) <= zlen r + zlen r / 3.
Proof.
  remember (List.length r) as n eqn:L. revert r L.
  induction n as [n IH] using lt_wf_ind; intros r L.
  destruct r as [|a [|b [|c [|d r]]]]; try (cbn; lia).
  rewrite group_rev_app3 by discriminate. rewrite !zlen_cons.
  assert (X : zlen (group_rev (d :: r)) <= zlen (d :: r) + zlen (d :: r) / 3)
    by (apply (IH (List.length (d :: r))); [cbn in *; lia | reflexivity]).
  rewrite zlen_cons in X. pose proof (zlen_nonneg r). lia.
Qed.
Lemma zlen_rev {A} (l : list A) : zlen (rev l) = zlen l.
Proof. unfold zlen; rewrite rev_length; reflexivity. Qed.
Lemma zlen_group s : zlen (group s) <= zlen s + zlen s / 3.
Proof. unfold group. rewrite zlen_rev. rewrite <- (zlen_rev s). apply zlen_group_rev. Qed.

Lemma motes_ok n : 0 <= n < 10 ^ 256 ->
  exists s, motes (dec n) = Ret (VPaged s) /\ motes_text n s.
Proof.
  intros H. pose proof (dec_decimal n ltac:(lia)) as D.
  assert (L : zlen (dec n) <= 256) by (apply (dec_len n 256); try lia).
  unfold motes. rewrite separators_group by apply D.
  pose proof (zlen_group (dec n)) as G.
  replace (400 <=? zlen (group (dec n)) + 6) with false by lia.
  eexists; split; [reflexivity|]. exists (dec n); split; auto.
Qed.

(** * U512 and fixed-width amounts on screen *)
Lemma display_pre_ok n e o :
  0 <= o -> 0 < n -> o + n < blen e -> blen e < 65536 ->
  display_pre n e o = (Ret tt, o).
Proof.
  intros. unfold display_pre. rewrite step_get_off, step_ask, step_check by (rewrite u32_small; lia).
  unfold check. destruct (n =? 0) eqn:E; [lia | reflexivity].
Qed.

Lemma amount_bignum_at b bs e o :
  at_ e o (b :: bs) -> bytes bs -> zlen bs <= 64 ->
  exists s, amount_bignum (zlen (b :: bs)) e o = (Ret (VPaged s), o) /\ motes_text (value bs) s.
Proof.
  intros H B L. apply at_cons in H; destruct H as [_ H].
  unfold amount_bignum. rewrite step_get_off, (step_at _ _ bs) by (auto; rewrite zlen_cons; lia).
  unfold bignum_text. rewrite le_val_value. pose proof (value_bound bs B) as V.
  assert (M : 256 ^ zlen bs <= 256 ^ 64) by (apply Z.pow_le_mono_r; lia).
  change (10 ^ (2 * 128)) with (10 ^ 256).
  assert (X : 256 ^ 64 < 10 ^ 256) by (vm_compute; reflexivity).
  rewrite Z.mod_small by lia.
  destruct (motes_ok (value bs) ltac:(lia)) as (s & E & T).
  exists s; split; [|exact T]. unfold lift. rewrite E; reflexivity.
Qed.

Lemma show_u512 b bs e o :
  wf e -> at_ e o (b :: bs) -> zlen bs <= 64 -> o + zlen (b :: bs) < blen e ->
  exists s, display_runtimeArgMotes TAG_U512 (zlen (b :: bs)) e o = (Ret (VPaged s), o)
            /\ motes_text (value bs) s.
Proof.
  intros W H L Hb. pose proof (at_bound _ _ _ W H) as B. rewrite zlen_cons in *.
  pose proof (zlen_nonneg bs). pose proof (wf_max e W).
  assert (By : bytes bs) by (pose proof (slice_bytes _ _ _ _ (wf_bytes e W) H) as X; inversion X; auto).
  destruct (amount_bignum_at b bs e o H By L) as (s & E & T).
  exists s; split; [|exact T]. unfold display_runtimeArgMotes.
  step (display_pre_ok (1 + zlen bs) e o ltac:(lia) ltac:(lia) ltac:(lia) ltac:(lia)).
  change (TAG_U512 =? TAG_U32) with false. change (TAG_U512 =? TAG_U64) with false.
  change (TAG_U512 =? TAG_U512) with true. cbv iota.
  rewrite zlen_cons in E. exact E.
Qed.

(** * Hexadecimal *)
Lemma nibbles_eq bs : bytes bs -> bytes_to_nibbles bs = nibbles bs.
Proof.
  induction 1 as [|b r Hb _ IH]; [reflexivity|].
  cbn [bytes_to_nibbles nibbles flat_map app]. fold (nibbles r). rewrite IH.
  rewrite Z.shiftr_div_pow2 by lia. change (2 ^ 4) with 16.
  change 15 with (Z.ones 4). rewrite Z.land_ones by lia. reflexivity.
Qed.

Lemma nibbles_range bs : bytes bs -> Forall (fun n => 0 <= n < 16) (nibbles bs).
Proof.
  induction 1 as [|b r Hb _ IH]; [constructor|]. unfold byte in Hb.
  cbn [nibbles flat_map app]. constructor; [lia|]. constructor; [lia | exact IH].
Qed.

Lemma zlen_nibbles bs : zlen (nibbles bs) = 2 * zlen bs.
Proof.
  induction bs as [|b r IH]; [reflexivity|]. cbn [nibbles flat_map app]. fold (nibbles r).
  rewrite !zlen_cons, IH. lia.
Qed.

Lemma hex_char n : 0 <= n < 16 ->
  rd HEX_CHARS n = Some (if n <? 10 then 48 + n else 97 + (n - 10)).
Proof.
  intros H.
  assert (E : forall k, 0 <= k < 16 -> k = 0 \/ k = 1 \/ k = 2 \/ k = 3 \/ k = 4 \/ k = 5 \/ k = 6 \/ k = 7
              \/ k = 8 \/ k = 9 \/ k = 10 \/ k = 11 \/ k = 12 \/ k = 13 \/ k = 14 \/ k = 15) by (intros; lia).
  specialize (E n H).
  repeat (destruct E as [->|E]; [reflexivity|]). subst; reflexivity.
Qed.

Lemma encode_loop_cased h : zlen h = 32 -> forall ns k,
  Forall (fun n => 0 <= n < 16) ns -> 0 <= k -> k + zlen ns <= 256 ->
  encode_loop h ns (k / 8) (k mod 8) = Ret (hex_cased h k ns).
Proof.
  intros Hl; induction ns as [|n r IH]; intros k F K L; [reflexivity|].
  inversion F as [|? ? Hn Fr]; subst. rewrite zlen_cons in L. pose proof (zlen_nonneg r).
  cbn [encode_loop hex_cased]. rewrite hex_char by auto.
  destruct (n <? 10) eqn:E.
  - replace (is_alphabetic (48 + n)) with false by (unfold is_alphabetic; lia).
    rewrite IH by (auto; lia). reflexivity.
  - replace (is_alphabetic (97 + (n - 10))) with true by (unfold is_alphabetic; lia).
    unfold get_next_hash_bit.
    destruct (rd_total h (k / 8) ltac:(lia)) as [b Rb]. rewrite Rb.
    assert (Nb : nth (Z.to_nat (k / 8)) h 0 = b).
    { unfold rd in Rb. destruct (_ && _); [|discriminate]. apply nth_error_nth; exact Rb. }
    assert (C : (if Z.testbit b (k mod 8) then to_uppercase (97 + (n - 10)) else to_lowercase (97 + (n - 10)))
                = (if bit h k then 65 + (n - 10) else 97 + (n - 10))).
    { unfold bit. rewrite Nb. unfold to_uppercase, to_lowercase.
      destruct (Z.testbit b (k mod 8)).
      - replace ((97 <=? 97 + (n - 10)) && (97 + (n - 10) <=? 122)) with true by lia. lia.
      - replace ((65 <=? 97 + (n - 10)) && (97 + (n - 10) <=? 90)) with false by lia. reflexivity. }
    destruct (8 <=? k mod 8 + 1) eqn:E8.
    + pose proof (IH (k + 1) Fr ltac:(lia) ltac:(lia)) as I.
      replace ((k + 1) / 8) with (k / 8 + 1) in I by lia.
      replace ((k + 1) mod 8) with 0 in I by lia.
      rewrite I, C. reflexivity.
    + pose proof (IH (k + 1) Fr ltac:(lia) ltac:(lia)) as I.
      replace ((k + 1) / 8) with (k / 8) in I by lia.
      replace ((k + 1) mod 8) with (k mod 8 + 1) in I by lia.
      rewrite I, C. reflexivity.
Qed.

Lemma zlen_hex_cased h ns : forall k, zlen (hex_cased h k ns) = zlen ns.
Proof.
  induction ns as [|n r IH]; intros k; [reflexivity|]. cbn [hex_cased].
  destruct (n <? 10); rewrite !zlen_cons, IH; reflexivity.
Qed.
Lemma zlen_cep57 h bs : zlen (cep57 h bs) = 2 * zlen bs.
Proof. unfold cep57. rewrite zlen_hex_cased, zlen_nibbles; reflexivity. Qed.

Lemma encode_ok H bs :
  (forall x, zlen (H x) = 32) -> bytes bs -> zlen bs <= 50 ->
  encode H bs = Ret (cep57 (H bs) bs).
Proof.
  intros Hh B L. unfold encode. pose proof (zlen_nonneg bs).
  rewrite u8_small by lia. unfold MAX_NIBBLE_LEN.
  replace (100 <? 2 * zlen bs) with false by lia.
  rewrite nibbles_eq by auto. unfold cep57.
  change (encode_loop (H bs) (nibbles bs) (0 / 8) (0 mod 8) = Ret (hex_cased (H bs) 0 (nibbles bs))).
  apply encode_loop_cased; auto; try lia.
  - apply nibbles_range; auto.
  - rewrite zlen_nibbles; lia.
Qed.

Lemma printBytes_ok H bs :
  (forall x, zlen (H x) = 32) -> bytes bs -> zlen bs <= 49 ->
  printBytes H bs = Ret (VPaged (cep57 (H bs) bs)).
Proof.
  intros Hh B L. unfold printBytes. rewrite encode_ok by (auto; lia).
  rewrite zlen_cep57. replace (2 * zlen bs <? 100) with true by lia. reflexivity.
Qed.

Lemma parser_printBytes_at bs e i n o :
  wf e -> at_ e i bs -> n = zlen bs -> zlen bs <= 49 ->
  parser_printBytes i n e o = (Ret (VPaged (cep57 (hash e bs) bs)), o).
Proof.
  intros W H -> L. pose proof (slice_bytes _ _ _ _ (wf_bytes e W) H) as B.
  pose proof (zlen_nonneg bs).
  unfold parser_printBytes. rewrite (u8_small (zlen bs)) by lia. rewrite u8_small by lia.
  unfold MAX_NIBBLE_LEN. replace (100 <? 2 * zlen bs) with false by lia.
  rewrite (step_at _ _ bs) by auto. rewrite step_ask.
  unfold lift. rewrite printBytes_ok; auto. apply (wf_hash e W).
Qed.

Lemma shiftr4 t : Z.shiftr t 4 = t / 16.
Proof. rewrite Z.shiftr_div_pow2 by lia. reflexivity. Qed.
Lemma land15 t : Z.land t 15 = t mod 16.
Proof. change 15 with (Z.ones 4). rewrite Z.land_ones by lia. reflexivity. Qed.

Lemma encode_addr_ok H cap t key :
  (forall x, zlen (H x) = 32) -> bytes key -> zlen key <= 50 -> 2 + 2 * zlen key <= cap ->
  encode_addr H cap (t :: key) = Ret (key_text H t key, true).
Proof.
  intros Hh B L C. unfold encode_addr. rewrite encode_ok by auto.
  rewrite zlen_cep57. replace (cap <? 2 + 2 * zlen key) with false by lia.
  rewrite shiftr4, land15. unfold key_text. rewrite (Z.add_comm 48 (t / 16)), (Z.add_comm 48 (t mod 16)).
  reflexivity.
Qed.

Lemma parser_printAddress_at t key e i n o :
  wf e -> at_ e i (t :: key) -> n = zlen (t :: key) -> zlen key <= 48 ->
  parser_printAddress i n e o = (Ret (VPaged (key_text (hash e) t key)), o).
Proof.
  intros W H -> L. pose proof (slice_bytes _ _ _ _ (wf_bytes e W) H) as B.
  inversion B; subst.
  unfold parser_printAddress. rewrite (step_at _ _ (t :: key)) by auto. rewrite step_ask.
  unfold lift at 1. unfold bind at 1. rewrite encode_addr_ok; auto; try lia; [|apply (wf_hash e W)].
  cbn [fst]. unfold key_text at 1. rewrite zlen_app, zlen_cep57. rewrite !zlen_cons, zlen_nil.
  replace (1 + (1 + 0) + 2 * zlen key <? 100) with true by lia. reflexivity.
Qed.

(** Reading the hexadecimal back gives the bytes, whatever the case bits. *)
Lemma hex_digit_cased b n : 0 <= n < 16 ->
  hex_digit (if n <? 10 then 48 + n else if (b : bool) then 65 + (n - 10) else 97 + (n - 10)) = Some n.
Proof.
  intros H. unfold hex_digit. destruct (n <? 10) eqn:E.
  - replace ((48 <=? 48 + n) && (48 + n <=? 57)) with true by lia. f_equal; lia.
  - destruct b.
    + replace ((48 <=? 65 + (n - 10)) && (65 + (n - 10) <=? 57)) with false by lia.
      replace ((65 <=? 65 + (n - 10)) && (65 + (n - 10) <=? 70)) with true by lia. f_equal; lia.
    + replace ((48 <=? 97 + (n - 10)) && (97 + (n - 10) <=? 57)) with false by lia.
      replace ((65 <=? 97 + (n - 10)) && (97 + (n - 10) <=? 70)) with false by lia.
      replace ((97 <=? 97 + (n - 10)) && (97 + (n - 10) <=? 102)) with true by lia. f_equal; lia.
Qed.

Lemma hex_cased_cons h k n r : exists b k',
  hex_cased h k (n :: r) = (if n <? 10 then 48 + n else if (b : bool) then 65 + (n - 10) else 97 + (n - 10))
                             :: hex_cased h k' r.
Proof.
  cbn [hex_cased]. destruct (n <? 10) eqn:E; [exists true, k | exists (bit h k), (k + 1)]; reflexivity.
Qed.

Lemma unhex_cased h bs : bytes bs -> forall k, unhex (hex_cased h k (nibbles bs)) = Some bs.
Proof.
  induction 1 as [|b r Hb _ IH]; intros k; [reflexivity|]. unfold byte in Hb.
  change (nibbles (b :: r)) with (b / 16 :: b mod 16 :: nibbles r).
  destruct (hex_cased_cons h k (b / 16) (b mod 16 :: nibbles r)) as (b1 & k1 & ->).
  destruct (hex_cased_cons h k1 (b mod 16) (nibbles r)) as (b2 & k2 & ->).
  cbn [unhex]. rewrite !hex_digit_cased by lia. rewrite IH. f_equal. f_equal. lia.
Qed.
Lemma unhex_cep57 h bs : bytes bs -> unhex (cep57 h bs) = Some bs.
Proof. intros B; apply unhex_cased; auto. Qed.

Lemma cep57_inj h1 h2 a b : bytes a -> bytes b -> cep57 h1 a = cep57 h2 b -> a = b.
Proof.
  intros A B E. pose proof (unhex_cep57 h1 a A) as X. rewrite E, unhex_cep57 in X by auto. congruence.
Qed.


(** * Time to live *)
Lemma join_snoc l x : l <> [] -> join (l ++ [x]) = join l ++ [32] ++ x.
Proof.
  induction l as [|a l IH]; intros H; [contradiction|].
  destruct l as [|b l]; [reflexivity|].
  change ((a :: b :: l) ++ [x]) with (a :: (b :: l) ++ [x]).
  assert (E : join ((b :: l) ++ [x]) = join (b :: l) ++ [32] ++ x) by (apply IH; discriminate).
  cbn [join]. destruct ((b :: l) ++ [x]) eqn:D; [destruct l; discriminate|].
  rewrite E. destruct l; cbn [join] in *; rewrite <- ?app_assoc; reflexivity.
Qed.

Lemma ttl_part_join l v u : 0 <= v -> Forall (fun x => x <> []) l ->
  ttl_part (join l) v u = join (l ++ part v (dec v) (str u)) /\ Forall (fun x => x <> []) (l ++ part v (dec v) (str u)).
Proof.
  intros H F. unfold ttl_part, part. destruct (0 <? v) eqn:E.
  - replace (v =? 0) with false by lia. split.
    + destruct l as [|a l]; [reflexivity|]. rewrite join_snoc by discriminate.
      destruct (join (a :: l)) eqn:J.
      * exfalso. inversion F; subst. destruct a; [contradiction|]. destruct l; discriminate.
      * rewrite <- J, <- !app_assoc. reflexivity.
    + apply Forall_app; split; auto. constructor; [|constructor].
      pose proof (dec_decimal v H) as (D & _). destruct (dec v); [contradiction | discriminate].
  - replace (v =? 0) with true by lia. rewrite app_nil_r. auto.
Qed.

Lemma parse_TTL_ok v : 0 <= v < 29 * 86400 -> exists s, parse_TTL v = Ret s /\ ttl_text v s.
Proof.
  intros H. unfold parse_TTL. replace (28 <? v / 86400) with false by lia.
  set (d := v / 86400). set (h := v mod 86400 / 3600). set (m := v mod 86400 mod 3600 / 60).
  set (x := v mod 86400 mod 3600 mod 60).
  set (l0 := part d (dec d) (text (if d =? 1 then "day" else "days"))).
  assert (E0 : (if d =? 1 then str "1day" else if 1 <? d then dec d ++ str "days" else []) = join l0).
  { unfold l0, part. destruct (d =? 1) eqn:E1.
    - replace (d =? 0) with false by lia. apply Z.eqb_eq in E1; rewrite E1. reflexivity.
    - destruct (1 <? d) eqn:E2; [replace (d =? 0) with false by lia; reflexivity|].
      replace (d =? 0) with true by lia. reflexivity. }
  assert (F0 : Forall (fun y => y <> []) l0).
  { unfold l0, part. destruct (d =? 0); constructor; [|constructor].
    pose proof (dec_decimal d ltac:(lia)) as (D & _). destruct (dec d); [contradiction | discriminate]. }
  destruct (ttl_part_join l0 h "h" ltac:(lia) F0) as [E1 F1].
  destruct (ttl_part_join _ m "m" ltac:(lia) F1) as [E2 F2].
  destruct (ttl_part_join _ x "s" ltac:(lia) F2) as [E3 F3].
  cbv zeta. rewrite E0, E1, E2, E3.
  eexists; split; [reflexivity|].
  exists d, h, m, x, (dec d), (dec h), (dec m), (dec x).
  repeat split; try (apply dec_decimal); try lia.
  rewrite <- !app_assoc. reflexivity.
Qed.

Lemma parse_TTL_refused v : 29 * 86400 <= v -> parse_TTL v = Fail parser_unexpected_value.
Proof. intros H. unfold parse_TTL. replace (28 <? v / 86400) with true by lia. reflexivity. Qed.

(** Reading a TTL text back: digits accumulate a number, a unit adds it. *)
Definition rstep (st : Z * Z) (c : Z) : Z * Z :=
  let '(tot, n) := st in
  if (48 <=? c) && (c <=? 57) then (tot, 10 * n + (c - 48))
  else if c =? 100 then (tot + 86400 * n, 0)
  else if c =? 104 then (tot + 3600 * n, 0)
  else if c =? 109 then (tot + 60 * n, 0)
  else if c =? 115 then (tot + n, 0)
  else st.
Definition read_ttl (s : list Z) : Z := fst (fold_left rstep s (0, 0)).

Lemma rstep_digits s : Forall digit s -> forall tot n,
  fold_left rstep s (tot, n) = (tot, fold_left (fun a c => 10 * a + (c - 48)) s n).
Proof.
  induction 1 as [|c s Hc _ IH]; intros tot n; [reflexivity|]. cbn [fold_left].
  unfold rstep at 2. unfold digit in Hc. replace ((48 <=? c) && (c <=? 57)) with true by lia. apply IH.
Qed.

Lemma rstep_decimal n s tot : decimal n s -> fold_left rstep s (tot, 0) = (tot, n).
Proof. intros (_ & F & V & _). rewrite rstep_digits by auto. unfold num in V. rewrite V. reflexivity. Qed.

(** how the reader advances over one part *)
Definition weigh (u : list Z) (k : Z) : Prop := forall tot n, fold_left rstep u (tot, n) = (tot + k * n, 0).

Lemma read_join l : forall ks, Forall2 (fun x kn => exists s u, x = s ++ u /\ decimal (snd kn) s /\ weigh u (fst kn)) l ks ->
  forall tot, fold_left rstep (join l) (tot, 0) = (tot + fold_right (fun kn a => fst kn * snd kn + a) 0 ks, 0).
Proof.
  induction l as [|x l IH]; intros ks F tot; inversion F as [|? kn ? ks' Hx Fl]; subst; cbn [fold_right].
  - cbn. f_equal; lia.
  - destruct Hx as (s & u & -> & D & Wu).
    assert (E : forall t, fold_left rstep (s ++ u) (t, 0) = (t + fst kn * snd kn, 0)).
    { intros t. rewrite fold_left_app, (rstep_decimal _ _ _ D). apply Wu. }
    destruct l as [|y l].
    + inversion Fl; subst. cbn [join fold_right]. rewrite E. f_equal; lia.
    + change (join ((s ++ u) :: y :: l)) with ((s ++ u) ++ [32] ++ join (y :: l)).
      rewrite (fold_left_app rstep (s ++ u)), E, fold_left_app. cbn [fold_left rstep]. cbn [Z.leb Z.eqb Z.compare Pos.compare Pos.compare_cont Pos.eqb andb].
      rewrite (IH ks' Fl). f_equal; lia.
Qed.

Lemma read_ttl_text v s : ttl_text v s -> read_ttl s = v.
Proof.
  intros (d & h & m & x & nd & nh & nm & nx & -> & Hd & Hh & Hm & Hx & Dd & Dh & Dm & Dx & ->).
  unfold read_ttl.
  assert (W1 : weigh (text "day") 86400) by (intros t n; cbn; f_equal; lia).
  assert (W2 : weigh (text "days") 86400) by (intros t n; cbn; f_equal; lia).
  assert (W3 : weigh (text "h") 3600) by (intros t n; cbn; f_equal; lia).
  assert (W4 : weigh (text "m") 60) by (intros t n; cbn; f_equal; lia).
  assert (W5 : weigh (text "s") 1) by (intros t n; rewrite Z.mul_1_l; reflexivity).
  set (pk := fun (k n : Z) => if n =? 0 then [] else [(k, n)]).
  rewrite (read_join _ (pk 86400 d ++ pk 3600 h ++ pk 60 m ++ pk 1 x)).
  - unfold pk. rewrite !fold_right_app. cbn [fst].
    destruct (d =? 0) eqn:E1, (h =? 0) eqn:E2, (m =? 0) eqn:E3, (x =? 0) eqn:E4; cbn [fold_right fst snd]; lia.
  - assert (A : forall n s u k, decimal n s -> weigh u k ->
       Forall2 (fun x kn => exists s u, x = s ++ u /\ decimal (snd kn) s /\ weigh u (fst kn)) (part n s u) (pk k n)).
    { intros n s0 u k D W. unfold part, pk. destruct (n =? 0); constructor; [|constructor]. exists s0, u; auto. }
    apply Forall2_app; [|apply Forall2_app; [|apply Forall2_app]]; apply A; auto.
    destruct (d =? 1); auto.
Qed.

Lemma ttl_text_inj v w s : ttl_text v s -> ttl_text w s -> v = w.
Proof. intros A B. rewrite <- (read_ttl_text v s A). apply read_ttl_text; auto. Qed.

Lemma show_ttl_at ms e o :
  wf e -> at_ e o (le 8 ms) -> 0 <= ms < 2 ^ 64 ->
  if ms / 1000 <? 29 * 86400
  then exists s, show_ttl e o = (Ret (mkItem (text "Ttl") (VPaged s)), o + 8) /\ ttl_text (ms / 1000) s
  else show_ttl e o = (Fail parser_unexpected_value, o + 8).
Proof.
  intros W H B. unfold show_ttl.
  pose proof (readU64_at ms e o W H B) as R.
  destruct (ms / 1000 <? 29 * 86400) eqn:E.
  - destruct (parse_TTL_ok (ms / 1000)) as (s & P & T); [lia|].
    exists s; split; [|exact T]. step R. unfold lift, bind. rewrite P. reflexivity.
  - step R. unfold lift, bind. rewrite parse_TTL_refused by lia. reflexivity.
Qed.

(** * Pages *)
Lemma skipn_skipn {A} a b (l : list A) : skipn a (skipn b l) = skipn (b + a) l.
Proof. revert l; induction b as [|b IH]; intros l; [reflexivity|]. destruct l; [destruct a; reflexivity | apply IH]. Qed.
Fixpoint pages (outlen : Z) (s : list Z) (from : Z) (n : nat) : list Z :=
  match n with O => [] | Datatypes.S k => fst (page outlen s from) ++ pages outlen s (from + 1) k end.

Lemma pages_all outlen s :
  1 < outlen -> s <> [] -> zlen s <= 255 * (outlen - 1) ->
  snd (page outlen s 0) = (zlen s + outlen - 2) / (outlen - 1) /\
  pages outlen s 0 (Z.to_nat (snd (page outlen s 0))) = s.
Proof.
  intros Hw Hs Hl. set (w := outlen - 1) in *.
  assert (Ls : 0 < zlen s) by (destruct s; [contradiction | rewrite zlen_cons; pose proof (zlen_nonneg s); lia]).
  assert (Q : 0 <= zlen s / w <= 255).
  { split; [apply Z.div_pos; lia|]. apply Z.div_le_upper_bound; lia. }
  pose proof (Z.div_mod (zlen s) w ltac:(lia)) as DM. pose proof (Z.mod_pos_bound (zlen s) w ltac:(lia)) as MB.
  set (cnt := zlen s / w + (if 0 <? zlen s mod w then 1 else 0)).
  assert (C : cnt <= 255 /\ 0 < cnt /\ zlen s <= cnt * w /\ (cnt - 1) * w < zlen s).
  { unfold cnt. destruct (0 <? zlen s mod w) eqn:E; nia. }
  assert (P : forall i, page outlen s i = if i <? cnt then (firstn (Z.to_nat w) (skipn (Z.to_nat (i * w)) s), cnt) else ([], cnt)).
  { intros i. unfold page. fold w. replace ((0 <? w) && (0 <? zlen s)) with true by lia.
    rewrite (u8_small (zlen s / w)) by lia. fold cnt. rewrite u8_small by lia. reflexivity. }
  assert (C0 : snd (page outlen s 0) = cnt) by (rewrite P; destruct (0 <? cnt); reflexivity).
  rewrite C0. split.
  - apply (Z.div_unique _ _ cnt (zlen s + outlen - 2 - w * cnt)); [|lia].
    left. unfold w in *. nia.
  - assert (G : forall n i, 0 <= i -> i + Z.of_nat n = cnt -> pages outlen s i n = skipn (Z.to_nat (i * w)) s).
    { induction n as [|n IH]; intros i Hi E.
      - cbn [pages]. symmetry. apply skipn_all2. unfold zlen in *. nia.
      - cbn [pages]. rewrite P. replace (i <? cnt) with true by lia. cbn [fst].
        rewrite IH by lia. rewrite <- (firstn_skipn (Z.to_nat w) (skipn (Z.to_nat (i * w)) s)) at 2.
        f_equal. rewrite skipn_skipn. f_equal. nia. }
    rewrite G by lia. reflexivity.
Qed.
