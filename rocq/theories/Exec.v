(** Running the readers of the model on encoded data. *)
From Verif Require Import Base Zxlib Crypto Utils RuntimeArg BaseFacts Spec.
Import S.

(** The bytes [bs] are in the buffer at position [o]. *)
Definition at_ (e : env) (o : Z) (bs : list Z) : Prop := slice (mem e) o (zlen bs) = Some bs.

Lemma len_zlen {A} (l : list A) : S.len l = zlen l.
Proof. reflexivity. Qed.
Lemma text_str s : S.text s = str s.
Proof. reflexivity. Qed.

Lemma at_app e o a b : at_ e o (a ++ b) <-> at_ e o a /\ at_ e (o + zlen a) b.
Proof.
  unfold at_; rewrite zlen_app; split.
  - intros H; apply slice_Some in H; destruct H as (pre & post & Hm & H1 & H2).
    split; apply slice_Some.
    + exists pre, (b ++ post); rewrite Hm, <- !app_assoc; auto.
    + exists (pre ++ a), post; rewrite Hm, zlen_app, <- !app_assoc; repeat split; lia.
  - intros [Ha Hb]. apply slice_Some in Ha, Hb.
    destruct Ha as (pre & post & Hm & H1 & H2), Hb as (pre' & post' & Hm' & H1' & H2').
    apply slice_Some; exists pre, post'; split; [|split; [auto | rewrite zlen_app; lia]].
    rewrite Hm in Hm'. rewrite app_assoc in Hm'.
    assert (Hl : pre ++ a = pre' /\ post = b ++ post').
    { assert (List.length (pre ++ a) = List.length pre') by (unfold zlen in *; rewrite app_length; lia).
      apply (f_equal (firstn (List.length (pre ++ a)))) in Hm' as F.
      rewrite firstn_app, firstn_all, Nat.sub_diag in F; cbn [firstn] in F.
      rewrite app_nil_r, H, firstn_app, firstn_all, Nat.sub_diag in F; cbn [firstn] in F.
      rewrite app_nil_r in F; split; [exact F|].
      rewrite F in Hm'; apply app_inv_head in Hm'; auto. }
    destruct Hl as [_ Hp]; rewrite Hm, Hp, <- app_assoc; reflexivity.
Qed.

Lemma at_cons e o x l : at_ e o (x :: l) <-> rd (mem e) o = Some x /\ at_ e (o + 1) l.
Proof.
  change (x :: l) with ([x] ++ l); rewrite at_app; unfold at_ at 1.
  change (zlen [x]) with 1; rewrite <- rd_slice; tauto.
Qed.

Lemma at_bound e o bs : wf e -> at_ e o bs -> 0 <= o /\ o + zlen bs <= blen e /\ o + zlen bs < 65536.
Proof.
  intros W H; apply slice_bounds in H; rewrite (wf_len e W) in *.
  pose proof (wf_max e W); rewrite (wf_len e W) in *; lia.
Qed.

Lemma u16_small x : 0 <= x < 65536 -> u16 x = x.
Proof. intros; unfold u16; apply Z.mod_small; lia. Qed.
Lemma u32_small x : 0 <= x < 4294967296 -> u32 x = x.
Proof. intros; unfold u32; apply Z.mod_small; lia. Qed.
Lemma u8_small x : 0 <= x < 256 -> u8 x = x.
Proof. intros; unfold u8; apply Z.mod_small; lia. Qed.

Lemma le_length n v : zlen (le n v) = Z.of_nat n.
Proof. revert v; induction n as [|n IH]; intros v; cbn [le]; [reflexivity|]. rewrite zlen_cons, IH; lia. Qed.
Lemma le_bytes n v : bytes (le n v).
Proof. revert v; induction n as [|n IH]; intros v; cbn [le]; constructor; [unfold byte; lia | apply IH]. Qed.

Lemma pair_ret {A} (a b : A) (o o' : Z) : a = b -> o = o' -> (Ret a, o) = (Ret b, o').
Proof. congruence. Qed.
Ltac pr := apply pair_ret; [try reflexivity; lia | try reflexivity; lia].

(** * Integers *)
Lemma read_le_at k v e o :
  wf e -> at_ e o (le k v) -> 0 <= v < 256 ^ Z.of_nat k ->
  read_le k e o = (Ret v, o + Z.of_nat k).
Proof.
  intros W; revert v o; induction k as [|k IH]; intros v o H Hv.
  - cbn in *. pr.
  - cbn [le] in H. pose proof (at_bound e o _ W H) as B; rewrite zlen_cons, le_length in B.
    apply at_cons in H; destruct H as [H1 H2].
    cbn [read_le]; unfold get_off, ask, check, mem_at, advance, bind.
    destruct (o <? blen e) eqn:E; [|lia]. cbv [ret]; rewrite H1; cbv [get_off set_off].
    rewrite u16_small by lia.
    rewrite (IH (v / 256)); auto.
    + pr.
    + rewrite Nat2Z.inj_succ, Z.pow_succ_r in Hv by lia; split; [lia|].
      apply Z.div_lt_upper_bound; lia.
Qed.

Lemma readU8_at v e o : wf e -> at_ e o [v] -> readU8 e o = (Ret v, o + 1).
Proof.
  intros W H. pose proof (at_bound e o _ W H) as B; change (zlen [v]) with 1 in B.
  apply at_cons in H; destruct H as [H _].
  unfold readU8; cbn [read_le]; unfold get_off, ask, check, mem_at, advance, bind.
  destruct (o <? blen e) eqn:E; [|lia]. cbv [ret]; rewrite H; cbv [get_off set_off].
  rewrite u16_small by lia. pr.
Qed.
Lemma readU16_at v e o :
  wf e -> at_ e o (le 2 v) -> 0 <= v < 65536 -> readU16 e o = (Ret v, o + 2).
Proof. intros; apply (read_le_at 2); auto. Qed.
Lemma readU32_at v e o :
  wf e -> at_ e o (le 4 v) -> 0 <= v < 4294967296 -> readU32 e o = (Ret v, o + 4).
Proof. intros; apply (read_le_at 4); auto. Qed.
Lemma readU64_at v e o :
  wf e -> at_ e o (le 8 v) -> 0 <= v < 18446744073709551616 -> readU64 e o = (Ret v, o + 8).
Proof. intros; apply (read_le_at 8); auto. Qed.

(** Rewriting with a known step. *)
Ltac step H := rewrite (bind_Ret _ _ _ _ _ _ H); cbv beta.

Lemma step_get_off {B} (f : Z -> P B) e o : bind get_off f e o = f o e o.
Proof. reflexivity. Qed.
Lemma step_ask {A B} (g : env -> A) (f : A -> P B) e o : bind (ask g) f e o = f (g e) e o.
Proof. reflexivity. Qed.
Lemma step_set_off {B} x (f : unit -> P B) e o : 0 <= x < 65536 -> bind (set_off x) f e o = f tt e x.
Proof. intros; cbv [bind set_off]; rewrite u16_small by lia; reflexivity. Qed.
Lemma step_advance {B} x (f : unit -> P B) e o :
  0 <= o + x < 65536 -> bind (advance x) f e o = f tt e (o + x).
Proof. intros; cbv [bind advance get_off set_off]; rewrite u16_small by lia; reflexivity. Qed.
Lemma step_check {B} (b : bool) x (f : unit -> P B) e o :
  b = true -> bind (check b x) f e o = f tt e o.
Proof. intros ->; reflexivity. Qed.
Lemma step_ret {A B} (a : A) (f : A -> P B) e o : bind (ret a) f e o = f a e o.
Proof. reflexivity. Qed.
Lemma step_slice {B} i n bs (f : list Z -> P B) e o :
  slice (mem e) i n = Some bs -> bind (mem_slice i n) f e o = f bs e o.
Proof. intros H; cbv [bind mem_slice]; rewrite H; reflexivity. Qed.
Lemma step_at {B} i n bs (f : list Z -> P B) e o :
  at_ e i bs -> n = zlen bs -> bind (mem_slice i n) f e o = f bs e o.
Proof. intros H ->; apply step_slice; exact H. Qed.
Lemma step_mem_at {B} i b (f : Z -> P B) e o :
  rd (mem e) i = Some b -> bind (mem_at i) f e o = f b e o.
Proof. intros H; cbv [bind mem_at]; rewrite H; reflexivity. Qed.
Lemma step_lift {A B} (a : A) (f : A -> P B) e o : bind (lift (Ret a)) f e o = f a e o.
Proof. reflexivity. Qed.
Lemma step_try_ok {A B} (p : P A) (f : A + Z -> P B) e o a o' :
  p e o = (Ret a, o') -> bind (try p) f e o = f (inl a) e o'.
Proof. intros H; unfold bind, try; rewrite H; reflexivity. Qed.
Lemma step_try_fail {A B} (p : P A) (f : A + Z -> P B) e o x o' :
  p e o = (Fail x, o') -> bind (try p) f e o = f (inr x) e o'.
Proof. intros H; unfold bind, try; rewrite H; reflexivity. Qed.

(** * Length-prefixed items *)
Lemma zlen_lv bs : zlen (lv bs) = 4 + zlen bs.
Proof. unfold lv; rewrite zlen_app, le_length; reflexivity. Qed.
Lemma at_lv e o bs : at_ e o (lv bs) <-> at_ e o (le 4 (zlen bs)) /\ at_ e (o + 4) bs.
Proof. unfold lv; rewrite at_app, le_length; reflexivity. Qed.

Lemma parse_item_at bs e o :
  wf e -> at_ e o (lv bs) -> parse_item e o = (Ret tt, o + zlen (lv bs)).
Proof.
  intros W H. pose proof (at_bound e o _ W H) as B.
  unfold lv in *; rewrite zlen_app, le_length in *; rewrite len_zlen in *.
  pose proof (zlen_nonneg bs).
  apply at_app in H; destruct H as [H1 H2].
  unfold parse_item.
  step (readU32_at (zlen bs) e o W H1 ltac:(lia)).
  rewrite step_get_off, step_ask, step_check by (rewrite u32_small; lia).
  cbv [advance bind get_off set_off]; rewrite u16_small by lia.
  pr.
Qed.

Lemma copy_item_at cap bs e o :
  wf e -> at_ e o (lv bs) -> zlen bs <= cap ->
  copy_item_into_charbuffer cap e o = (Ret bs, o + zlen (lv bs)).
Proof.
  intros W H Hc. pose proof (at_bound e o _ W H) as B.
  unfold lv in *; rewrite zlen_app, le_length in *; rewrite len_zlen in *.
  pose proof (zlen_nonneg bs).
  apply at_app in H; destruct H as [H1 H2]; rewrite le_length in H2.
  unfold copy_item_into_charbuffer.
  step (readU32_at (zlen bs) e o W H1 ltac:(lia)).
  rewrite step_get_off, step_ask, step_check by lia.
  rewrite (step_at _ _ bs) by (auto; lia).
  rewrite step_advance by lia. cbv [ret]; pr.
Qed.

(** * Type descriptors *)
Definition inner (t : cltype) (d : Z) : Z :=
  match t with
  | COption a => tag a
  | CList a => match a with Prim g => if g =? 21 then d else g | _ => tag a end
  | CMap _ b =>
      match b with
      | COption a => tag a
      | CList a => match a with Prim g => if g =? 21 then d else g | _ => tag a end
      | _ => d
      end
  | _ => d
  end.

Lemma enc_type_hd t : exists r, enc_type t = tag t :: r.
Proof. destruct t; cbn; eexists; reflexivity. Qed.

Definition rest (t : cltype) : list Z := tl (enc_type t).
Lemma enc_type_cons t : enc_type t = tag t :: rest t.
Proof. destruct t; reflexivity. Qed.

Lemma prim_tag_cases g : prim_tag g = true -> 0 <= g <= 12 \/ g = 22.
Proof. unfold prim_tag; lia. Qed.

Lemma leaf_not_container t : leaf t = true -> is_container_type (tag t) = false.
Proof.
  unfold is_container_type, TAG_OPTION, TAG_LIST, TAG_RESULT, TAG_ANY, leaf, prim_tag.
  destruct t; try discriminate; cbn [tag]; lia.
Qed.

Lemma pat_prim f g it e o :
  (prim_tag g || (g =? 21)) = true -> parse_additional_typebytes (Datatypes.S f) g it e o = (Ret it, o).
Proof.
  intros H; cbn [parse_additional_typebytes].
  unfold TAG_UREF, TAG_PUBLIC_KEY, TAG_ANY.
  replace ((g <=? 12) || (g =? 22) || (g =? 21)) with true; [reflexivity|].
  unfold prim_tag in H; lia.
Qed.

Lemma pat_leaf f t it e o :
  wf e -> leaf t = true -> at_ e o (rest t) ->
  parse_additional_typebytes (Datatypes.S f) (tag t) it e o = (Ret it, o + zlen (rest t)).
Proof.
  intros W L H; destruct t; try discriminate; cbn [tag].
  - rewrite pat_prim by (cbn in L; rewrite L; reflexivity). cbn; pr.
  - cbn [leaf] in L. unfold rest in *; cbn [enc_type tl] in *.
    cbn [parse_additional_typebytes]. cbv [TAG_UREF TAG_PUBLIC_KEY TAG_ANY TAG_OPTION TAG_BYTE_ARRAY].
    cbn [Z.leb Z.eqb Z.compare Pos.compare Pos.compare_cont Pos.eqb orb].
    step (readU32_at n e o W H ltac:(lia)). rewrite le_length; reflexivity.
Qed.

Lemma por_ok it p q e o i1 o1 i2 o2 :
  p e o = (Ret i1, o1) -> q i1 e o1 = (Ret i2, o2) -> por it p q e o = (Ret i2, o2).
Proof. intros H1 H2; unfold por; rewrite (step_try_ok _ _ _ _ _ _ H1); exact H2. Qed.

Ltac tags := cbv [TAG_UREF TAG_PUBLIC_KEY TAG_ANY TAG_OPTION TAG_BYTE_ARRAY TAG_LIST TAG_RESULT
                  TAG_TUPLE1 TAG_TUPLE2 TAG_TUPLE3 TAG_MAP];
             cbn [Z.leb Z.eqb Z.compare Pos.compare Pos.compare_cont Pos.eqb orb].

Lemma plain_leaf t : plain t = true -> leaf t = true /\ rest t = [] /\ exists g, t = Prim g /\ prim_tag g = true.
Proof. destruct t; cbn; try discriminate; intros H; split; auto; split; [reflexivity|]; eauto. Qed.

(** A one-level descriptor after its tag. *)
Lemma pat_supported1 f t it e o :
  wf e -> supported1 t = true -> at_ e o (rest t) ->
  exists it', parse_additional_typebytes (Datatypes.S (Datatypes.S f)) (tag t) it e o = (Ret it', o + zlen (rest t))
              /\ (match t with COption _ | CList _ => it' = inner t it | _ => it' = it \/ it' = 0 end).
Proof.
  intros W Sp H.
  remember (Datatypes.S f) as g0 eqn:Eg.
  assert (PP : forall g it o, (prim_tag g || (g =? 21)) = true ->
                              parse_additional_typebytes g0 g it e o = (Ret it, o))
    by (intros; subst g0; apply pat_prim; auto).
  assert (PL : forall t it o, leaf t = true -> at_ e o (rest t) ->
                              parse_additional_typebytes g0 (tag t) it e o = (Ret it, o + zlen (rest t)))
    by (intros; subst g0; apply pat_leaf; auto).
  clear Eg.
  destruct t as [g | a | a | n | a b | a b | a | a b | a b c]; cbn [supported1] in Sp; try discriminate.
  - exists it; cbn [tag]; rewrite pat_prim by auto. split; [|auto]. cbn; pr.
  - (* option *)
    exists (tag a); split; [|reflexivity].
    change (rest (COption a)) with (enc_type a) in *. rewrite enc_type_cons in *.
    change (tag a :: rest a) with ([tag a] ++ rest a) in *.
    rewrite zlen_app in *; change (zlen [tag a]) with 1 in *.
    apply at_app in H; destruct H as [H1 H2]; change (zlen [tag a]) with 1 in H2.
    cbn [tag parse_additional_typebytes]; tags.
    step (readU8_at _ _ _ W H1).
    rewrite leaf_not_container by auto.
    step (PL a 255 (o + 1) Sp H2). cbv [ret]; pr.
  - (* list *)
    change (rest (CList a)) with (enc_type a) in *.
    destruct (match a with Prim g => g =? 21 | _ => false end) eqn:Any.
    + destruct a; try discriminate. apply Z.eqb_eq in Any; subst tag0.
      exists it; cbn [tag inner]; split; [|reflexivity].
      cbn [enc_type] in *. cbn [parse_additional_typebytes]; tags.
      step (readU8_at _ _ _ W H). cbn [Z.eqb Pos.eqb]. reflexivity.
    + rewrite orb_false_r in Sp. exists (tag a); split.
      * rewrite enc_type_cons in *.
        change (tag a :: rest a) with ([tag a] ++ rest a) in *.
        rewrite zlen_app in *; change (zlen [tag a]) with 1 in *.
        apply at_app in H; destruct H as [H1 H2]; change (zlen [tag a]) with 1 in H2.
        cbn [tag parse_additional_typebytes]; tags.
        step (readU8_at _ _ _ W H1).
        replace (tag a =? 21) with false
          by (symmetry; pose proof (leaf_not_container a Sp) as L;
              unfold is_container_type, TAG_OPTION, TAG_LIST, TAG_RESULT, TAG_ANY in L; lia).
        rewrite leaf_not_container by auto.
        step (PL a (tag a) (o + 1) Sp H2). cbv [ret]; pr.
      * cbn [inner]; destruct a; cbn [tag]; auto. rewrite Any; reflexivity.
  - exists it; split; [|auto].
    cbn [tag]. change 15 with (tag (CByteArray n)). apply pat_leaf; auto.
  - (* result *)
    apply andb_true_iff in Sp; destruct Sp as [Pa Lb].
    destruct (plain_leaf a Pa) as (La & Ra & g & -> & Pg).
    exists it; split; [|auto].
    change (rest (CResult (Prim g) b)) with ([g] ++ enc_type b) in *.
    rewrite enc_type_cons in *.
    change (tag b :: rest b) with ([tag b] ++ rest b) in *.
    rewrite !zlen_app in *; change (zlen [g]) with 1 in *; change (zlen [tag b]) with 1 in *.
    rewrite !at_app in H; destruct H as (H1 & H2 & H3).
    change (zlen [g]) with 1 in *; change (zlen [tag b]) with 1 in *.
    cbn [tag parse_additional_typebytes]; tags.
    step (readU8_at _ _ _ W H1). step (readU8_at _ _ _ W H2).
    rewrite leaf_not_container by auto.
    pose proof (leaf_not_container (Prim g) La) as Cg; cbn [tag] in Cg; rewrite Cg; cbn [orb].
    erewrite por_ok; [reflexivity | | ].
    + apply PP; rewrite Pg; reflexivity.
    + rewrite PL by auto. pr.
  - (* tuple1 *)
    exists it; split; [|auto].
    change (rest (CTuple1 a)) with (enc_type a) in *. rewrite enc_type_cons in *.
    change (tag a :: rest a) with ([tag a] ++ rest a) in *.
    rewrite zlen_app in *; change (zlen [tag a]) with 1 in *.
    apply at_app in H; destruct H as [H1 H2]; change (zlen [tag a]) with 1 in H2.
    cbn [tag parse_additional_typebytes]; tags.
    step (readU8_at _ _ _ W H1).
    rewrite leaf_not_container by auto.
    step (PL a 0 (o + 1) Sp H2). cbv [ret]; pr.
  - (* tuple2 *)
    apply andb_true_iff in Sp; destruct Sp as [Pa Lb].
    destruct (plain_leaf a Pa) as (La & Ra & g & -> & Pg).
    exists it; split; [|auto].
    change (rest (CTuple2 (Prim g) b)) with ([g] ++ enc_type b) in *.
    rewrite enc_type_cons in *.
    change (tag b :: rest b) with ([tag b] ++ rest b) in *.
    rewrite !zlen_app in *; change (zlen [g]) with 1 in *; change (zlen [tag b]) with 1 in *.
    rewrite !at_app in H; destruct H as (H1 & H2 & H3).
    change (zlen [g]) with 1 in *; change (zlen [tag b]) with 1 in *.
    cbn [tag parse_additional_typebytes]; tags.
    pose proof (leaf_not_container (Prim g) La) as Cg; cbn [tag] in Cg.
    step (readU8_at _ _ _ W H1). rewrite Cg. step (readU8_at _ _ _ W H2).
    rewrite leaf_not_container by auto.
    erewrite bind_Ret; [cbv [ret]; reflexivity |].
    eapply por_ok.
    + apply PP; rewrite Pg; reflexivity.
    + rewrite PL by auto. pr.
  - (* tuple3 *)
    rewrite !andb_true_iff in Sp; destruct Sp as [[Pa Pb] Lc].
    destruct (plain_leaf a Pa) as (La & Ra & g & -> & Pg).
    destruct (plain_leaf b Pb) as (Lb & Rb & g' & -> & Pg').
    exists it; split; [|auto].
    change (rest (CTuple3 (Prim g) (Prim g') c)) with ([g] ++ [g'] ++ enc_type c) in *.
    rewrite enc_type_cons in *.
    change (tag c :: rest c) with ([tag c] ++ rest c) in *.
    rewrite !zlen_app in *; change (zlen [g]) with 1 in *; change (zlen [g']) with 1 in *;
      change (zlen [tag c]) with 1 in *.
    rewrite !at_app in H; destruct H as (H1 & H2 & H3 & H4).
    change (zlen [g]) with 1 in *; change (zlen [g']) with 1 in *; change (zlen [tag c]) with 1 in *.
    cbn [tag parse_additional_typebytes]; tags.
    pose proof (leaf_not_container (Prim g) La) as Cg; cbn [tag] in Cg.
    pose proof (leaf_not_container (Prim g') Lb) as Cg'; cbn [tag] in Cg'.
    step (readU8_at _ _ _ W H1). rewrite Cg. step (readU8_at _ _ _ W H2). rewrite Cg'.
    step (readU8_at _ _ _ W H3).
    rewrite leaf_not_container by auto.
    erewrite bind_Ret; [cbv [ret]; reflexivity |].
    eapply por_ok; [eapply por_ok|].
    + apply PP; rewrite Pg; reflexivity.
    + apply PP; rewrite Pg'; reflexivity.
    + rewrite PL by auto. pr.
Qed.

Lemma supported_tag t : supported t = true -> 0 <= tag t <= 22.
Proof.
  destruct t; cbn [supported supported1 tag]; try lia.
  unfold prim_tag; lia.
Qed.

Lemma get_type_at t d e o :
  wf e -> supported t = true -> at_ e o (enc_type t) ->
  exists it, get_type d e o = (Ret (tag t, it), o + zlen (enc_type t))
             /\ (forall i, option_inner t = Some i -> it = i).
Proof.
  intros W Sp H.
  rewrite enc_type_cons in H. change (tag t :: rest t) with ([tag t] ++ rest t) in H.
  apply at_app in H; destruct H as [H1 H2]; change (zlen [tag t]) with 1 in H2.
  rewrite (enc_type_cons t), zlen_cons.
  assert (X : exists it, parse_additional_typebytes 3 (tag t) d e (o + 1) = (Ret it, o + 1 + zlen (rest t))
                         /\ (forall i, option_inner t = Some i -> it = i)).
  { destruct (match t with CMap _ _ => true | _ => false end) eqn:M.
    - destruct t as [ | | | | | a b | | | ]; try discriminate.
      cbn [supported] in Sp; apply andb_true_iff in Sp; destruct Sp as [Pa Sb].
      destruct a as [g | | | | | | | | ]; try discriminate.
      change (rest (CMap (Prim g) b)) with ([g] ++ enc_type b) in *.
      rewrite enc_type_cons in *.
      change (tag b :: rest b) with ([tag b] ++ rest b) in *.
      rewrite !at_app in H2; destruct H2 as (H2 & H3 & H4).
      change (zlen [g]) with 1 in *; change (zlen [tag b]) with 1 in *.
      destruct (pat_supported1 0 b d e (o + 1 + 1 + 1) W Sb H4) as (it & Hit & _).
      exists it; split; [|discriminate].
      cbn [tag]. remember 2%nat as f eqn:Ef. cbn [parse_additional_typebytes]; tags.
      step (readU8_at _ _ _ W H2). step (readU8_at _ _ _ W H3).
      assert (is_map_type g = false) as -> by (unfold is_map_type, TAG_MAP, prim_tag in *; lia).
      assert (is_map_type (tag b) = false) as ->
        by (unfold is_map_type, TAG_MAP; destruct b; cbn [supported1 tag] in *; try discriminate; try lia;
            unfold prim_tag in *; lia).
      cbn [orb]. subst f.
      rewrite !zlen_app; change (zlen [g]) with 1; change (zlen [tag b]) with 1.
      erewrite por_ok; [reflexivity | apply pat_prim; exact Pa |].
      rewrite Hit; pr.
    - assert (S1 : supported1 t = true) by (destruct t; cbn [supported] in Sp; try discriminate; exact Sp).
      destruct (pat_supported1 1 t d e (o + 1) W S1 H2) as (it & Hit & Hi).
      exists it; split; [exact Hit|].
      intros i Hoi; destruct t; try discriminate; cbn in Hoi, Hi; congruence. }
  destruct X as (it & Hit & Hi); exists it; split; [|exact Hi].
  unfold get_type. step (readU8_at _ _ _ W H1).
  unfold check_runtime_type; rewrite step_check
    by (pose proof (supported_tag t Sp); unfold NUM_RUNTIME_TYPES; lia).
  step Hit. cbv [ret]; pr.
Qed.
