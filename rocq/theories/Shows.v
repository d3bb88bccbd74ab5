(** From abstract lines to what the display functions produce, and the
    display of single arguments. *)
From Verif Require Import Base Zxlib Crypto Utils RuntimeArg BaseFacts Spec SpecText SpecDeploy Exec ArgsFacts ReaderFacts TextFacts.
Import S ST SD.

(** The display value [d] presents [v]; [H] is the hash function and [tf] the
    date formatter of the platform.  [VPaged]: shown page by page. *)
Definition renders (H : list Z -> list Z) (tf : Z -> option (list Z)) (v : view) (d : dval) : Prop :=
  match v with
  | Hex bs => d = VPaged (cep57 (H bs) bs)
  | KeyText t k => d = VPaged (key_text H t k)
  | Text s => d = VPaged s
  | Words s => d = VDirect s
  | Motes n => exists s, motes_text n s /\ d = VPaged s
  | Number n => exists s, decimal n s /\ d = VPaged s
  | Ttl n => exists s, ttl_text n s /\ d = VPaged s
  | Time n => exists s, tf n = Some s /\ d = VPaged s
  | ArgsHash lab bs => d = VPaged (lab ++ text "-" ++ cep57 (H bs) (H bs))
  end.
Definition shows (H : list Z -> list Z) (tf : Z -> option (list Z)) (l : line) (it : item) : Prop :=
  ikey it = fst l /\ renders H tf (snd l) (ival it).

(** [p] succeeds at [o] and yields an item showing [l]. *)
Definition displays (p : P item) (e : env) (o : Z) (l : line) : Prop :=
  exists it o', p e o = (Ret it, o') /\ shows (hash e) (timefmt e) l it.

Lemma good_arg_ok l : Forall good_arg l -> Forall arg_ok l.
Proof. apply Forall_impl. intros a (A & B & C). unfold arg_ok. auto. Qed.

Lemma read_number n v e o :
  wf e -> at_ e o v -> S.len v = Z.of_nat n -> read_le n e o = (Ret (value v), o + Z.of_nat n).
Proof.
  intros W A L. change (S.len v) with (zlen v) in L.
  pose proof (slice_bytes _ _ _ _ (wf_bytes e W) A) as B.
  pose proof (value_bound v B) as V.
  assert (E : at_ e o (le n (value v))).
  { replace (le n (value v)) with v; auto. symmetry. apply le_value; auto. unfold zlen in L; lia. }
  apply read_le_at; auto. rewrite L in V; lia.
Qed.
Lemma show_number H tf v : bytes v -> renders H tf (Number (value v)) (printUInt (value v)).
Proof.
  intros B. pose proof (value_bound v B). exists (dec (value v)); split; [apply dec_decimal; lia | reflexivity].
Qed.
Lemma num_bytes_inv n val v : num_bytes n val = Some v -> S.len val = n /\ v = Number (value val).
Proof. unfold num_bytes. destruct (S.len val =? n) eqn:E; intros X; inversion X. split; auto; lia. Qed.
Lemma hex_bytes_inv bs v : hex_bytes bs = Some v -> 1 <= zlen bs <= 49 /\ v = Hex bs.
Proof.
  unfold hex_bytes. change (S.len bs) with (zlen bs).
  destruct (_ && _) eqn:E; intros X; inversion X. split; auto; lia.
Qed.
Lemma big_number_inv val n : big_number val = Some n ->
  exists b bs, val = b :: bs /\ zlen bs <= 64 /\ n = value bs.
Proof.
  unfold big_number. destruct val as [|b bs]; [discriminate|]. change (S.len bs) with (zlen bs).
  destruct (_ && _) eqn:E; intros X; inversion X. exists b, bs; split; auto; lia.
Qed.

(** The types of parameterless values that can be shown. *)
Lemma arg_view_prim g val v : arg_view (Prim g) val = Some v ->
  (g = 3 /\ num_bytes 1 val = Some v) \/ (g = 4 /\ num_bytes 4 val = Some v) \/
  (g = 5 /\ num_bytes 8 val = Some v) \/
  (g = 8 /\ exists n, big_number val = Some n /\ v = Motes n) \/
  (g = 11 /\ exists t bs, val = t :: bs /\ hex_bytes bs = Some v) \/
  (g = 12 /\ hex_bytes (removelast val) = Some v) \/
  (g = 22 /\ exists t key, val = t :: key /\ v = KeyText t key /\
              ((t = 1 /\ zlen key = 32) \/ (t = 2 /\ zlen key = 33))).
Proof.
  unfold arg_view. intros H.
  destruct g as [|p|p]; try discriminate H.
  repeat (destruct p as [p|p|]; try discriminate H); auto 10.
  - (* 11 *) destruct val as [|t bs]; [discriminate H|]. right; right; right; right; left. eauto.
  - (* 22 *) destruct val as [|t key]; [discriminate H|]. change (S.len key) with (zlen key) in H.
    do 6 right. split; auto. exists t, key.
    destruct (_ || _) eqn:E in H; inversion H. repeat split; auto. lia.
  - destruct (big_number val) as [n|]; inversion H. right; right; right; left. eauto.
Qed.

Lemma zlen_removelast {A} (l : list A) : l <> [] -> zlen (removelast l) = zlen l - 1.
Proof.
  intros H. destruct (exists_last H) as (p & x & ->). rewrite removelast_last, zlen_app. cbn; lia.
Qed.
Lemma at_removelast e o l : at_ e o l -> at_ e o (removelast l).
Proof.
  intros H. destruct l as [|a l]; [exact H|].
  destruct (exists_last (l := a :: l) ltac:(discriminate)) as (p & x & E). rewrite E in *.
  rewrite removelast_last. apply at_app in H; tauto.
Qed.

Lemma display_pre_at e o val r :
  wf e -> at_ e o (val ++ r) -> r <> [] -> val <> [] -> display_pre (zlen val) e o = (Ret tt, o).
Proof.
  intros W A Hr Hv. pose proof (at_bound _ _ _ W A) as B. rewrite zlen_app in B.
  assert (0 < zlen r) by (destruct r; [contradiction | rewrite zlen_cons; pose proof (zlen_nonneg r); lia]).
  assert (0 < zlen val) by (destruct val; [contradiction | rewrite zlen_cons; pose proof (zlen_nonneg val); lia]).
  apply display_pre_ok; try lia. apply wf_max; auto.
Qed.

Ltac tagcase := cbv [TAG_U8 TAG_U32 TAG_U64 TAG_U512 TAG_KEY TAG_UREF TAG_OPTION TAG_BYTE_ARRAY TAG_PUBLIC_KEY];
                cbn [tag Z.eqb Pos.eqb].

Lemma display_arg_at ty val v e o :
  wf e -> at_ e o (val ++ enc_type ty) -> arg_view ty val = Some v ->
  exists d o', display_runtimeArg (tag ty) (zlen val) e o = (Ret d, o') /\ renders (hash e) (timefmt e) v d.
Proof.
  intros W A V.
  assert (Bv : bytes (val ++ enc_type ty)) by (eapply slice_bytes; [apply (wf_bytes e W) | exact A]).
  apply bytes_app in Bv; destruct Bv as [Bv _].
  assert (NE : enc_type ty <> []) by (rewrite enc_type_cons; discriminate).
  pose proof (at_bound _ _ _ W A) as Bd. rewrite zlen_app in Bd.
  pose proof A as A0. apply at_app in A0; destruct A0 as [A1 A2].
  assert (Lv : val <> []).
  { intros ->. destruct ty as [g|t| |n| | | | | ]; try discriminate V.
    - apply arg_view_prim in V. unfold num_bytes in V. cbn in V.
      destruct V as [[_ V]|[[_ V]|[[_ V]|[[_ (? & V & _)]|[[_ (? & ? & V & _)]|[[_ V]|[_ (? & ? & V & _)]]]]]]]; discriminate V.
    - cbn [arg_view] in V. unfold hex_bytes in V. destruct (_ =? n); discriminate V. }
  unfold display_runtimeArg. step (display_pre_at _ _ _ _ W A NE Lv).
  destruct ty as [g|t| |n| | | | | ]; try discriminate V.
  - apply arg_view_prim in V.
    destruct V as [[-> V]|[[-> V]|[[-> V]|[[-> (n & V & ->)]|[[-> (t & bs & -> & V)]|[[-> V]|[-> (t & key & -> & -> & V)]]]]]]]; tagcase.
    + apply num_bytes_inv in V; destruct V as [L ->]. do 2 eexists; split.
      * step (read_number 1 _ _ _ W A1 L). reflexivity.
      * apply show_number; auto.
    + apply num_bytes_inv in V; destruct V as [L ->]. do 2 eexists; split.
      * step (read_number 4 _ _ _ W A1 L). reflexivity.
      * apply show_number; auto.
    + apply num_bytes_inv in V; destruct V as [L ->]. do 2 eexists; split.
      * step (read_number 8 _ _ _ W A1 L). reflexivity.
      * apply show_number; auto.
    + apply big_number_inv in V; destruct V as (b & bs & -> & L & ->). inversion Bv; subst.
      destruct (amount_bignum_at b bs e o A1 ltac:(auto) L) as (s & E & T).
      do 2 eexists; split; [exact E|]. exists s; auto.
    + apply hex_bytes_inv in V; destruct V as [L ->]. rewrite zlen_cons in *. pose proof (zlen_nonneg (enc_type (Prim 11))).
      rewrite step_advance by lia. rewrite step_get_off. rewrite u16_small by lia.
      do 2 eexists; split; [|reflexivity].
      apply at_cons in A1; destruct A1 as [_ A1].
      apply (parser_printBytes_at bs); auto; lia.
    + apply hex_bytes_inv in V; destruct V as [L ->]. pose proof (zlen_removelast val Lv) as ZL.
      rewrite step_get_off. rewrite u16_small by (pose proof (zlen_nonneg (enc_type (Prim 12))); lia).
      do 2 eexists; split; [|reflexivity].
      apply (parser_printBytes_at (removelast val)); auto; try lia. apply at_removelast; auto.
    + apply at_cons in A1; destruct A1 as [R A1'].
      rewrite step_get_off, (step_mem_at _ _ _ _ _ R).
      do 2 eexists; split; [|reflexivity].
      apply parser_printAddress_at; auto.
      * apply at_cons; auto.
      * rewrite zlen_cons. destruct V as [[-> ->]|[-> ->]]; reflexivity.
      * lia.
  - (* option *)
    cbn [tag]. tagcase.
    cbn [arg_view] in V. destruct val as [|c val]; [contradiction|].
    apply at_cons in A1; destruct A1 as [R A1]. assert (A3 : at_ e o [c]) by (apply at_cons; split; auto; apply at_app in A; unfold at_; unfold slice; pose proof (zlen_nonneg (enc_type (COption t))); rewrite <- (wf_len e W); rewrite zlen_cons in Bd; pose proof (zlen_nonneg val); destruct (_ && _) eqn:E; [reflexivity | cbn in E; lia]).
    step (readU8_at c e o W A3).
    rewrite zlen_cons in *. pose proof (zlen_nonneg val).
    destruct (c =? 0) eqn:C0.
    + apply Z.eqb_eq in C0; subst c. destruct val; [|discriminate V]. inversion V.
      do 2 eexists; split; reflexivity.
    + assert (c = 1) as ->.
      { destruct c as [|p|p]; [discriminate C0| |discriminate V]. destruct p; try discriminate V. reflexivity. }
      cbn [app] in A. apply at_cons in A; destruct A as [_ A].
      change (enc_type (COption t)) with (13 :: enc_type t) in *.
      apply at_app in A; destruct A as [A4 A5]. apply at_cons in A5; destruct A5 as [_ A5].
      rewrite enc_type_cons in A5. apply at_cons in A5; destruct A5 as [A5 _].
      rewrite step_get_off. replace (o + 1 + (1 + zlen val)) with (o + 1 + zlen val + 1) by lia.
      rewrite (step_mem_at _ _ _ _ _ A5).
      inversion Bv; subst.
      assert (K : (t = Prim 4 /\ num_bytes 4 val = Some v) \/ (t = Prim 5 /\ num_bytes 8 val = Some v) \/
                  (t = Prim 12 /\ hex_bytes (removelast val) = Some v)).
      { destruct t as [g| | | | | | | |]; try (destruct val; discriminate V).
        destruct g as [|p|p]; try (destruct val; discriminate V).
        repeat (destruct p as [p|p|]; try (destruct val; discriminate V)); auto. }
      destruct K as [[-> K]|[[-> K]|[-> K]]]; tagcase.
      * apply num_bytes_inv in K; destruct K as [L ->]. do 2 eexists; split.
        -- step (read_number 4 _ _ _ W A4 L). reflexivity.
        -- apply show_number; auto.
      * apply num_bytes_inv in K; destruct K as [L ->]. do 2 eexists; split.
        -- step (read_number 8 _ _ _ W A4 L). reflexivity.
        -- apply show_number; auto.
      * apply hex_bytes_inv in K; destruct K as [L ->].
        assert (NV : val <> []) by (intros ->; cbn in L; lia).
        pose proof (zlen_removelast val NV) as ZL.
        rewrite step_check by lia. rewrite u16_small by lia.
        do 2 eexists; split; [|reflexivity].
        apply (parser_printBytes_at (removelast val)); auto; try lia. apply at_removelast; auto.
  - (* byte array *)
    cbn [tag]. tagcase. cbn [arg_view] in V. destruct (_ =? n) eqn:En; [|discriminate V].
    apply hex_bytes_inv in V; destruct V as [L ->].
    rewrite step_get_off. rewrite u16_small by lia.
    do 2 eexists; split; [|reflexivity]. apply (parser_printBytes_at val); auto; lia.
Qed.

Lemma amount_view_cases ty val v : amount_view ty val = Some v ->
  (ty = Prim 4 /\ S.len val = 4 /\ v = Motes (value val)) \/
  (ty = Prim 8 /\ exists n, big_number val = Some n /\ v = Motes n).
Proof.
  unfold amount_view. intros H. destruct ty as [g| | | | | | | |]; try discriminate H.
  destruct g as [|p|p]; try discriminate H.
  repeat (destruct p as [p|p|]; try discriminate H).
  - right. destruct (big_number val) as [n|]; inversion H. eauto.
  - left. destruct (S.len val =? 4) eqn:E; inversion H. repeat split; auto; lia.
Qed.

Lemma display_motes_at ty val v e o :
  wf e -> at_ e o (val ++ enc_type ty) -> amount_view ty val = Some v ->
  exists d o', display_runtimeArgMotes (tag ty) (zlen val) e o = (Ret d, o') /\ renders (hash e) (timefmt e) v d.
Proof.
  intros W A V.
  assert (Bv : bytes (val ++ enc_type ty)) by (eapply slice_bytes; [apply (wf_bytes e W) | exact A]).
  apply bytes_app in Bv; destruct Bv as [Bv _].
  assert (NE : enc_type ty <> []) by (rewrite enc_type_cons; discriminate).
  pose proof A as A0. apply at_app in A0; destruct A0 as [A1 A2].
  apply amount_view_cases in V.
  assert (Lv : val <> []).
  { intros ->. destruct V as [(_ & V & _)|(_ & n & V & _)]; discriminate V. }
  unfold display_runtimeArgMotes. step (display_pre_at _ _ _ _ W A NE Lv).
  destruct V as [(-> & L & ->)|(-> & n & V & ->)]; tagcase.
  - pose proof (value_bound val Bv) as VB. change (S.len val) with (zlen val) in L. rewrite L in VB.
    destruct (motes_ok (value val)) as (s & M & T).
    { split; [lia|]. eapply Z.lt_trans; [apply VB|]. vm_compute; reflexivity. }
    do 2 eexists; split.
    + step (read_number 4 _ _ _ W A1 L). unfold amount_int, lift. rewrite M. reflexivity.
    + exists s; auto.
  - apply big_number_inv in V; destruct V as (b & bs & -> & L & ->). inversion Bv; subst.
    destruct (amount_bignum_at b bs e o A1 ltac:(auto) L) as (s & E & T).
    do 2 eexists; split; [exact E|]. exists s; auto.
Qed.

(** * One argument under a label *)
Lemma want_inv view_of lab name l ln0 : want view_of lab name l = Some ln0 ->
  exists p a v, lookup (text name) l = Some (p, a) /\ view_of (a_ty a) (a_val a) = Some v /\ ln0 = ln lab v.
Proof.
  unfold want, find_arg. destruct (lookup (text name) l) as [[p a]|]; [|discriminate].
  destruct (view_of (a_ty a) (a_val a)) as [v|] eqn:E; [|discriminate]. intros X; inversion X. eauto 10.
Qed.
Lemma only_inv ok vw ty val v : only ok vw ty val = Some v -> ok ty = true /\ vw ty val = Some v.
Proof. unfold only. destruct (ok ty); [auto | discriminate]. Qed.

Lemma arg_value_at e o p a :
  at_ e (o + p) (enc_arg a) -> at_ e (o + p + val_off a) (a_val a ++ enc_type (a_ty a)).
Proof.
  unfold enc_arg, val_off. rewrite !at_app. intros (A1 & A2 & A3). rewrite zlen_lv in *.
  apply at_lv in A2; destruct A2 as [_ A2].
  split; [replace (o + p + (4 + zlen (a_name a) + 4)) with (o + p + (4 + zlen (a_name a)) + 4) by lia; auto|].
  rewrite zlen_lv in A3. replace (o + p + (4 + zlen (a_name a) + 4) + zlen (a_val a)) with (o + p + (4 + zlen (a_name a)) + (4 + zlen (a_val a))) by lia. auto.
Qed.

Lemma show_arg_at lab name ok l ln0 e o :
  wf e -> Forall arg_ok l -> at_ e o (enc_arg_list l) ->
  want (only ok arg_view) lab name l = Some ln0 ->
  displays (show_arg (str lab) (str name) (zlen l)) e o ln0.
Proof.
  intros W F A X. apply want_inv in X; destruct X as (p & a & v & Lk & V & ->).
  apply only_inv in V; destruct V as [_ V].
  pose proof (getData_at (text name) l e o W F A) as G. rewrite Lk in G. destruct G as [G Ga].
  destruct (display_arg_at _ _ _ _ _ W (arg_value_at _ _ _ _ Ga) V) as (d & o' & D & R).
  exists (mkItem (str lab) d), o'. split.
  - unfold show_arg. change (str name) with (text name). step G. cbn [fst snd]. step D. reflexivity.
  - split; [reflexivity | exact R].
Qed.

Lemma show_motes_at lab name ok l ln0 e o :
  wf e -> Forall arg_ok l -> at_ e o (enc_arg_list l) ->
  want (only ok amount_view) lab name l = Some ln0 ->
  displays (show_motes (str lab) (str name) (zlen l)) e o ln0.
Proof.
  intros W F A X. apply want_inv in X; destruct X as (p & a & v & Lk & V & ->).
  apply only_inv in V; destruct V as [_ V].
  pose proof (getData_at (text name) l e o W F A) as G. rewrite Lk in G. destruct G as [G Ga].
  destruct (display_motes_at _ _ _ _ _ W (arg_value_at _ _ _ _ Ga) V) as (d & o' & D & R).
  exists (mkItem (str lab) d), o'. split.
  - unfold show_motes. change (str name) with (text name). step G. cbn [fst snd]. step D. reflexivity.
  - split; [reflexivity | exact R].
Qed.
