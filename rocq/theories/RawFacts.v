(** Sessions of deploys on arbitrary bytes. *)
From Verif Require Import Base Zxlib Crypto Utils RuntimeArg Deploy DeployUI TxV1 TxV1UI Parser BaseFacts Spec SpecText SpecDeploy SpecTx SpecLayout SpecRaw Exec ArgsFacts ReaderFacts RangeFacts Demo BindFacts OklFacts BindCases FwdFacts.
Import S SL SR.

(** ** Type descriptors *)
Lemma byte1 e o v o' : wf e -> in16 o -> readU8 e o = (Ret v, o') -> 0 <= v < 256 /\ at_ e o [v] /\ o' = o + 1 /\ in16 o'.
Proof.
  intros W I H. pose proof (wf_max e W). apply readU8_inv in H; auto. destruct H as (V & A & L & ->). unfold in16 in *. split; [exact V|]. split; [exact A|]. lia.
Qed.
Lemma at_here1 e o v p : at_ e o (v :: p) <-> at_ e o [v] /\ at_ e (o + 1) p.
Proof. change (v :: p) with ([v] ++ p). rewrite at_app. reflexivity. Qed.
Lemma at_nil e o : wf e -> in16 o -> o <= blen e -> at_ e o [].
Proof.
  intros W I L. unfold in16 in I. destruct (at_total e o 0 W ltac:(lia) ltac:(lia) ltac:(lia)) as (bs & A & Z).
  destruct bs; [exact A|]. rewrite zlen_cons in Z. pose proof (zlen_nonneg bs). lia.
Qed.
Definition got (e : env) (o : Z) (Q : list Z -> Prop) (o' : Z) : Prop := exists p, Q p /\ at_ e o p /\ o' = o + zlen p.
Lemma por_ret it p q e o r o' : por it p q e o = (Ret r, o') -> exists a o1, p e o = (Ret a, o1) /\ q a e o1 = (Ret r, o').
Proof.
  intros H. unfold por in H. bx H x o1 T. apply try_inv in T. destruct x as [a|c]; [exists a, o1; auto|].
  bx H y o2 T2. destruct y; discriminate H.
Qed.
Lemma component_of t : 0 <= t < 256 -> is_container_type t = false -> t <= 22 -> component t.
Proof. unfold is_container_type, component, TAG_OPTION, TAG_LIST, TAG_RESULT, TAG_ANY. lia. Qed.
Lemma leaf_inv f t it e o r o' : wf e -> in16 o -> o <= blen e -> 0 <= t < 256 -> is_container_type t = false ->
  parse_additional_typebytes (Datatypes.S f) t it e o = (Ret r, o') -> component t /\ got e o (parameter t) o'.
Proof.
  intros W I L V N H. cbn [parse_additional_typebytes] in H. unfold TAG_UREF, TAG_PUBLIC_KEY, TAG_ANY, TAG_OPTION, TAG_BYTE_ARRAY, TAG_LIST, TAG_RESULT, TAG_TUPLE1, TAG_TUPLE2, TAG_TUPLE3, TAG_MAP in H.
  unfold is_container_type, TAG_OPTION, TAG_LIST, TAG_RESULT, TAG_ANY in N.
  destruct ((t <=? 12) || (t =? 22) || (t =? 21)) eqn:E1.
  - apply ret_inv in H. destruct H as [_ ->]. split; [unfold component; lia|]. exists []. split; [right; split; [lia|reflexivity]|].
    split; [apply at_nil; auto|rewrite zlen_nil; lia].
  - replace (t =? 13) with false in H by lia. destruct (t =? 15) eqn:E2.
    + bx H v o1 R. apply ret_inv in H. destruct H as [_ ->]. apply readU32_inv in R; auto. destruct R as (Vv & A & Lv & ->).
      split; [unfold component; lia|]. exists (le 4 v). split; [left; split; [lia|apply le_length]|]. split; [exact A|]. rewrite le_length. reflexivity.
    + replace (t =? 14) with false in H by lia. replace (t =? 16) with false in H by lia. replace (t =? 18) with false in H by lia.
      replace (t =? 19) with false in H by lia. replace (t =? 20) with false in H by lia. replace (t =? 17) with false in H by lia. discriminate H.
Qed.
Lemma got_in e o Q o' : wf e -> got e o Q o' -> in16 o' /\ o' <= blen e.
Proof. intros W (p & _ & A & ->). pose proof (at_bound _ _ _ W A). pose proof (zlen_nonneg p). unfold in16. lia. Qed.

Ltac ats := repeat (apply at_here1; split; [assumption|]); rewrite ?at_app; auto 7.
Ltac rd1 H v o V A I := let R := fresh "R" in let E := fresh "E" in bx H v o R; apply byte1 in R; [|assumption|assumption]; destruct R as (V & A & E & I).
Lemma flat_inv f t it e o r o' : wf e -> in16 o -> o <= blen e -> 0 <= t < 256 -> t <> 17 ->
  parse_additional_typebytes (Datatypes.S (Datatypes.S f)) t it e o = (Ret r, o') -> got e o (flat t) o'.
Proof.
  intros W I L V N H. pose proof (wf_max e W) as Mx. destruct (is_container_type t) eqn:C.
  2:{ destruct (leaf_inv _ _ _ _ _ _ _ W I L V C H) as (K & p & P & A & ->). exists p. split; [|auto].
      destruct P as [[-> Lp]|[Np ->]]; [apply f_array, Lp|apply f_simple]. unfold component in K. unfold simple. lia. }
  remember (Datatypes.S f) as g eqn:Eg. cbn [parse_additional_typebytes] in H. unfold is_container_type, TAG_OPTION, TAG_LIST, TAG_RESULT, TAG_ANY in C.
  unfold TAG_UREF, TAG_PUBLIC_KEY, TAG_ANY, TAG_OPTION, TAG_BYTE_ARRAY, TAG_LIST, TAG_RESULT, TAG_TUPLE1, TAG_TUPLE2, TAG_TUPLE3, TAG_MAP in H.
  destruct ((t <=? 12) || (t =? 22) || (t =? 21)) eqn:E1.
  { apply ret_inv in H. destruct H as [_ ->]. exists []. split; [apply f_simple; unfold simple; lia|]. split; [apply at_nil; auto|rewrite zlen_nil; lia]. }
  assert (LP : forall a it1 q r1 q1, in16 q -> q <= blen e -> 0 <= a < 256 -> is_container_type a = false -> parse_additional_typebytes g a it1 e q = (Ret r1, q1) ->
     component a /\ got e q (parameter a) q1) by (intros; subst g; eapply leaf_inv; eauto).
  assert (LE : forall q v, at_ e q [v] -> q + 1 <= blen e) by (intros q v A; pose proof (at_bound _ _ _ W A) as X; change (zlen [v]) with 1 in X; lia).
  destruct (t =? 13) eqn:E2.
  { rd1 H a q1 Va Aa Ia. subst q1. destruct (is_container_type a) eqn:Ca; [discriminate H|]. bx H r1 q2 T. apply ret_inv in H. destruct H as [_ ->].
    destruct (LP _ _ _ _ _ Ia (LE _ _ Aa) Va Ca T) as (K & p & P & A & ->). exists (a :: p). split; [apply f_one; auto; lia|]. split; [apply at_here1; auto|]. rewrite zlen_cons. lia. }
  replace (t =? 15) with false in H by lia. destruct (t =? 14) eqn:E3.
  { rd1 H a q1 Va Aa Ia. subst q1. destruct (a =? 21) eqn:E21.
    - apply ret_inv in H. destruct H as [_ ->]. exists [21]. replace a with 21 in Aa by lia. replace t with 14 by lia. split; [apply f_any|]. split; [exact Aa|reflexivity].
    - destruct (is_container_type a) eqn:Ca; [discriminate H|]. bx H r1 q2 T. apply ret_inv in H. destruct H as [_ ->].
      destruct (LP _ _ _ _ _ Ia (LE _ _ Aa) Va Ca T) as (K & p & P & A & ->). exists (a :: p). split; [apply f_one; auto; lia|]. split; [apply at_here1; auto|]. rewrite zlen_cons. lia. }
  destruct (t =? 16) eqn:E4.
  { rd1 H a q1 Va Aa Ia. subst q1. rd1 H b q2 Vb Ab Ib. subst q2. destruct (is_container_type a || is_container_type b) eqn:Cc; [discriminate H|].
    apply orb_false_iff in Cc. destruct Cc as [Ca Cb]. destruct (por_ret _ _ _ _ _ _ _ H) as (r1 & q3 & T1 & T2).
    destruct (LP _ _ _ _ _ Ib (LE _ _ Ab) Va Ca T1) as (Ka & G1). destruct (got_in _ _ _ _ W G1) as [I3 L3]. destruct G1 as (p & P & A & ->).
    destruct (LP _ _ _ _ _ I3 L3 Vb Cb T2) as (Kb & p2 & P2 & A2 & ->).
    exists (a :: b :: p ++ p2). split; [apply f_two; auto; lia|]. split; [ats|rewrite !zlen_cons, zlen_app; lia]. }
  destruct (t =? 18) eqn:E5.
  { rd1 H a q1 Va Aa Ia. subst q1. destruct (is_container_type a) eqn:Ca; [discriminate H|]. bx H r1 q2 T. apply ret_inv in H. destruct H as [_ ->].
    destruct (LP _ _ _ _ _ Ia (LE _ _ Aa) Va Ca T) as (K & p & P & A & ->). exists (a :: p). split; [apply f_one; auto; lia|]. split; [apply at_here1; auto|]. rewrite zlen_cons. lia. }
  destruct (t =? 19) eqn:E6.
  { rd1 H a q1 Va Aa Ia. subst q1. destruct (is_container_type a) eqn:Ca; [discriminate H|]. rd1 H b q2 Vb Ab Ib. subst q2. destruct (is_container_type b) eqn:Cb; [discriminate H|].
    bx H r0 q0 Po. apply ret_inv in H. destruct H as [_ ->]. destruct (por_ret _ _ _ _ _ _ _ Po) as (r1 & q3 & T1 & T2).
    destruct (LP _ _ _ _ _ Ib (LE _ _ Ab) Va Ca T1) as (Ka & G1). destruct (got_in _ _ _ _ W G1) as [I3 L3]. destruct G1 as (p & P & A & ->).
    destruct (LP _ _ _ _ _ I3 L3 Vb Cb T2) as (Kb & p2 & P2 & A2 & ->).
    exists (a :: b :: p ++ p2). split; [apply f_two; auto; lia|]. split; [ats|rewrite !zlen_cons, zlen_app; lia]. }
  destruct (t =? 20) eqn:E7.
  { rd1 H a q1 Va Aa Ia. subst q1. destruct (is_container_type a) eqn:Ca; [discriminate H|]. rd1 H b q2 Vb Ab Ib. subst q2. destruct (is_container_type b) eqn:Cb; [discriminate H|].
    rd1 H c q3 Vc Ac Ic. subst q3. destruct (is_container_type c) eqn:Cc; [discriminate H|].
    bx H r0 q0 Po. apply ret_inv in H. destruct H as [_ ->]. destruct (por_ret _ _ _ _ _ _ _ Po) as (r1 & q4 & T0 & T3). destruct (por_ret _ _ _ _ _ _ _ T0) as (r2 & q5 & T1 & T2).
    destruct (LP _ _ _ _ _ Ic (LE _ _ Ac) Va Ca T1) as (Ka & G1). destruct (got_in _ _ _ _ W G1) as [I3 L3]. destruct G1 as (p & P & A & ->).
    destruct (LP _ _ _ _ _ I3 L3 Vb Cb T2) as (Kb & G2). destruct (got_in _ _ _ _ W G2) as [I4 L4]. destruct G2 as (p2 & P2 & A2 & ->).
    destruct (LP _ _ _ _ _ I4 L4 Vc Cc T3) as (Kc & p3 & P3 & A3 & ->).
    exists (a :: b :: c :: p ++ p2 ++ p3). replace t with 20 by lia. split; [apply f_three; auto|]. split; [ats|rewrite !zlen_cons, !zlen_app; lia]. }
  replace (t =? 17) with false in H by lia. discriminate H.
Qed.
Lemma type_inv it e o r o' : wf e -> in16 o -> get_type it e o = (Ret r, o') -> got e o type_bytes o'.
Proof.
  intros W I H. unfold get_type in H. rd1 H t q1 Vt At It. subst q1. bx H u q2 C. bx H i q3 T. apply ret_inv in H. destruct H as [_ ->].
  unfold check_runtime_type in C. apply check_inv in C. destruct C as [C ->].
  assert (LE : forall q v, at_ e q [v] -> q + 1 <= blen e) by (intros q v A; pose proof (at_bound _ _ _ W A) as X; change (zlen [v]) with 1 in X; lia).
  destruct (Z.eq_dec t 17) as [->|N].
  - remember (Datatypes.S (Datatypes.S O)) as g eqn:Eg. cbn [parse_additional_typebytes] in T. change (17 <=? TAG_UREF) with false in T. change (17 =? TAG_PUBLIC_KEY) with false in T. change (17 =? TAG_ANY) with false in T.
    change (17 =? TAG_OPTION) with false in T. change (17 =? TAG_BYTE_ARRAY) with false in T. change (17 =? TAG_LIST) with false in T. change (17 =? TAG_RESULT) with false in T.
    change (17 =? TAG_TUPLE1) with false in T. change (17 =? TAG_TUPLE2) with false in T. change (17 =? TAG_TUPLE3) with false in T. change (17 =? TAG_MAP) with true in T. cbn [orb] in T.
    rd1 T a q1 Va Aa Ia. subst q1. rd1 T b q2 Vb Ab Ib. subst q2. unfold is_map_type, TAG_MAP in T. destruct ((a =? 17) || (b =? 17)) eqn:M; [discriminate T|].
    destruct (por_ret _ _ _ _ _ _ _ T) as (r1 & q4 & T1 & T2). subst g.
    pose proof (flat_inv _ _ _ _ _ _ _ W Ib (LE _ _ Ab) Va ltac:(lia) T1) as G1. destruct (got_in _ _ _ _ W G1) as [I3 L3]. destruct G1 as (p & P & A & ->).
    destruct (flat_inv _ _ _ _ _ _ _ W I3 L3 Vb ltac:(lia) T2) as (p2 & P2 & A2 & ->).
    exists (17 :: a :: b :: p ++ p2). split; [apply t_map; auto|]. split; [ats|rewrite !zlen_cons, zlen_app; lia].
  - destruct (flat_inv _ _ _ _ _ _ _ W It (LE _ _ At) Vt N T) as (p & P & A & ->). exists (t :: p). split; [apply t_flat, P|]. split; [ats|rewrite zlen_cons; lia].
Qed.
Lemma leaf_run f t it p e o : wf e -> component t -> parameter t p -> at_ e o p ->
  exists r, parse_additional_typebytes (Datatypes.S f) t it e o = (Ret r, o + zlen p).
Proof.
  intros W K P A. unfold component in K. cbn [parse_additional_typebytes].
  unfold TAG_UREF, TAG_PUBLIC_KEY, TAG_ANY, TAG_OPTION, TAG_BYTE_ARRAY.
  destruct P as [[-> L]|[N ->]].
  - cbn [Z.leb Z.eqb Z.compare Pos.compare Pos.compare_cont Pos.eqb orb]. change (@S.len Z) with (@zlen Z) in L.
    pose proof (at_bound _ _ _ W A). pose proof (at_bytes _ _ _ W A) as Bp. exists it. rewrite <- (le_value 4 p Bp) in A by (unfold zlen in L; lia).
    pose proof (value_bound _ Bp) as Vb. rewrite L in Vb.
    rewrite (bind_Ret _ _ _ _ _ _ (readU32_at _ _ _ W A ltac:(lia))). rewrite L. reflexivity.
  - replace ((t <=? 12) || (t =? 22) || (t =? 21)) with true by lia. exists it. rewrite zlen_nil. unfold ret. f_equal. lia.
Qed.
Lemma component_not t : component t -> is_container_type t = false.
Proof. unfold component, is_container_type, TAG_OPTION, TAG_LIST, TAG_RESULT, TAG_ANY. lia. Qed.
Lemma por_run it p q e o a o1 r o' : p e o = (Ret a, o1) -> q a e o1 = (Ret r, o') -> por it p q e o = (Ret r, o').
Proof. intros H1 H2. unfold por. rewrite (bind_Ret _ _ _ _ (inl a) o1); [exact H2|]. unfold try. rewrite H1. reflexivity. Qed.
Lemma flat_run f t it p e o : wf e -> flat t p -> at_ e o p -> in16 o ->
  exists r, parse_additional_typebytes (Datatypes.S (Datatypes.S f)) t it e o = (Ret r, o + zlen p).
Proof.
  intros W F A I. destruct F.
  - exists it. cbn [parse_additional_typebytes]. unfold TAG_UREF, TAG_PUBLIC_KEY, TAG_ANY. unfold simple in H.
    replace ((t <=? 12) || (t =? 22) || (t =? 21)) with true by lia. rewrite zlen_nil. unfold ret. f_equal. lia.
  - apply leaf_run; auto; [unfold component; lia|left; auto].
  - exists it. cbn [parse_additional_typebytes]. cbv [TAG_UREF TAG_PUBLIC_KEY TAG_ANY TAG_OPTION TAG_BYTE_ARRAY TAG_LIST]. cbn [Z.leb Z.eqb Z.compare Pos.compare Pos.compare_cont Pos.eqb orb].
    rewrite (bind_Ret _ _ _ _ _ _ (readU8_at _ _ _ W A)). reflexivity.
  - remember (Datatypes.S f) as g eqn:Eg. apply at_here1 in A. destruct A as [A1 A2]. pose proof (component_not _ H0) as N.
    assert (LR : forall it2, exists r, parse_additional_typebytes g a it2 e (o + 1) = (Ret r, o + 1 + zlen p)) by (intros; subst g; apply leaf_run; auto).
    rewrite zlen_cons. replace (o + (1 + zlen p)) with (o + 1 + zlen p) by lia.
    destruct H as [-> | [-> | ->]]; cbn [parse_additional_typebytes]; cbv [TAG_UREF TAG_PUBLIC_KEY TAG_ANY TAG_OPTION TAG_BYTE_ARRAY TAG_LIST TAG_RESULT TAG_TUPLE1]; cbn [Z.leb Z.eqb Z.compare Pos.compare Pos.compare_cont Pos.eqb orb];
      rewrite (bind_Ret _ _ _ _ _ _ (readU8_at _ _ _ W A1)).
    + rewrite N. destruct (LR 255) as (r & E). exists a. rewrite (bind_Ret _ _ _ _ _ _ E). reflexivity.
    + replace (a =? 21) with false by (unfold component in H0; lia). rewrite N. destruct (LR a) as (r & E). exists a. rewrite (bind_Ret _ _ _ _ _ _ E). reflexivity.
    + rewrite N. destruct (LR 0) as (r & E). exists it. rewrite (bind_Ret _ _ _ _ _ _ E). reflexivity.
  - remember (Datatypes.S f) as g eqn:Eg. apply at_here1 in A. destruct A as [A1 A]. apply at_here1 in A. destruct A as [A2 A]. apply at_app in A. destruct A as [A3 A4].
    pose proof (component_not _ H0) as Na. pose proof (component_not _ H1) as Nb.
    assert (LA : forall it2, exists r, parse_additional_typebytes g a it2 e (o + 1 + 1) = (Ret r, o + 1 + 1 + zlen p)) by (intros; subst g; apply leaf_run; auto).
    assert (LB : forall it2, exists r, parse_additional_typebytes g b it2 e (o + 1 + 1 + zlen p) = (Ret r, o + 1 + 1 + zlen p + zlen q)) by (intros; subst g; apply leaf_run; auto).
    rewrite !zlen_cons, zlen_app. replace (o + (1 + (1 + (zlen p + zlen q)))) with (o + 1 + 1 + zlen p + zlen q) by lia.
    destruct H as [->| ->]; cbn [parse_additional_typebytes]; cbv [TAG_UREF TAG_PUBLIC_KEY TAG_ANY TAG_OPTION TAG_BYTE_ARRAY TAG_LIST TAG_RESULT TAG_TUPLE1 TAG_TUPLE2]; cbn [Z.leb Z.eqb Z.compare Pos.compare Pos.compare_cont Pos.eqb orb];
      rewrite (bind_Ret _ _ _ _ _ _ (readU8_at _ _ _ W A1)); [|rewrite Na]; rewrite (bind_Ret _ _ _ _ _ _ (readU8_at _ _ _ W A2)).
    + rewrite Na, Nb. cbn [orb]. destruct (LA it) as (r & E). destruct (LB r) as (r2 & E2). exists r2. exact (por_run _ _ _ _ _ _ _ _ _ E E2).
    + rewrite Nb. destruct (LA 0) as (r & E). destruct (LB r) as (r2 & E2). exists it. rewrite (bind_Ret _ _ _ _ _ _ (por_run _ _ _ _ _ _ _ _ _ E E2)). reflexivity.
  - remember (Datatypes.S f) as g eqn:Eg. apply at_here1 in A. destruct A as [A1 A]. apply at_here1 in A. destruct A as [A2 A]. apply at_here1 in A. destruct A as [A3 A].
    apply at_app in A. destruct A as [A4 A]. apply at_app in A. destruct A as [A5 A6].
    pose proof (component_not _ H) as Na. pose proof (component_not _ H0) as Nb. pose proof (component_not _ H1) as Nc. set (o3 := o + 1 + 1 + 1) in *.
    assert (LA : forall it2, exists r, parse_additional_typebytes g a it2 e o3 = (Ret r, o3 + zlen p)) by (intros; subst g; apply leaf_run; auto).
    assert (LB : forall it2, exists r, parse_additional_typebytes g b it2 e (o3 + zlen p) = (Ret r, o3 + zlen p + zlen q)) by (intros; subst g; apply leaf_run; auto).
    assert (LC : forall it2, exists r0, parse_additional_typebytes g c it2 e (o3 + zlen p + zlen q) = (Ret r0, o3 + zlen p + zlen q + zlen r)) by (intros; subst g; apply leaf_run; auto).
    rewrite !zlen_cons, !zlen_app. replace (o + (1 + (1 + (1 + (zlen p + (zlen q + zlen r)))))) with (o3 + zlen p + zlen q + zlen r) by (unfold o3; lia).
    cbn [parse_additional_typebytes]; cbv [TAG_UREF TAG_PUBLIC_KEY TAG_ANY TAG_OPTION TAG_BYTE_ARRAY TAG_LIST TAG_RESULT TAG_TUPLE1 TAG_TUPLE2 TAG_TUPLE3]; cbn [Z.leb Z.eqb Z.compare Pos.compare Pos.compare_cont Pos.eqb orb].
    rewrite (bind_Ret _ _ _ _ _ _ (readU8_at _ _ _ W A1)), Na, (bind_Ret _ _ _ _ _ _ (readU8_at _ _ _ W A2)), Nb, (bind_Ret _ _ _ _ _ _ (readU8_at _ _ _ W A3)), Nc.
    destruct (LA 0) as (r1 & E1). destruct (LB r1) as (r2 & E2). destruct (LC r2) as (r3 & E3). exists it.
    rewrite (bind_Ret _ _ _ _ _ _ (por_run _ _ _ _ _ _ _ _ _ (por_run _ _ _ _ _ _ _ _ _ E1 E2) E3)). reflexivity.
Qed.
Lemma type_run ty it e o : wf e -> type_bytes ty -> at_ e o ty -> exists r, get_type it e o = (Ret r, o + zlen ty).
Proof.
  intros W T A. unfold get_type, check_runtime_type, NUM_RUNTIME_TYPES. destruct T as [t p F|a b p q Fa Fb].
  - apply at_here1 in A. destruct A as [A1 A2]. assert (V : t <= 22) by (destruct F; unfold simple in *; lia).
    pose proof (at_bound _ _ _ W A1) as B1. change (zlen [t]) with 1 in B1.
    destruct (flat_run 1 t it p e (o + 1) W F A2 ltac:(unfold in16; lia)) as (r & E). exists (t, r). rewrite (bind_Ret _ _ _ _ _ _ (readU8_at _ _ _ W A1)).
    rewrite step_check by lia. rewrite (bind_Ret _ _ _ _ _ _ E). rewrite zlen_cons. unfold ret. f_equal. lia.
  - apply at_here1 in A. destruct A as [A1 A]. apply at_here1 in A. destruct A as [A2 A]. apply at_here1 in A. destruct A as [A3 A].
    apply at_app in A. destruct A as [A4 A5]. pose proof (at_bound _ _ _ W A3) as B1. change (zlen [b]) with 1 in B1.
    pose proof (at_bound _ _ _ W A5) as B5. pose proof (zlen_nonneg p). pose proof (zlen_nonneg q).
    assert (I4 : in16 (o + 1 + 1 + 1)) by (unfold in16; lia). assert (I5 : in16 (o + 1 + 1 + 1 + zlen p)) by (unfold in16; lia).
    destruct (flat_run 0 a it p e _ W Fa A4 I4) as (r1 & E1). destruct (flat_run 0 b r1 q e _ W Fb A5 I5) as (r2 & E2).
    exists (17, r2). rewrite (bind_Ret _ _ _ _ _ _ (readU8_at _ _ _ W A1)). rewrite step_check by reflexivity.
    assert (X : parse_additional_typebytes 3 17 it e (o + 1) = (Ret r2, o + 1 + 1 + 1 + zlen p + zlen q)).
    { remember (Datatypes.S (Datatypes.S O)) as g eqn:Eg. cbn [parse_additional_typebytes]. cbv [TAG_UREF TAG_PUBLIC_KEY TAG_ANY TAG_OPTION TAG_BYTE_ARRAY TAG_LIST TAG_RESULT TAG_TUPLE1 TAG_TUPLE2 TAG_TUPLE3 TAG_MAP is_map_type]. cbn [Z.leb Z.eqb Z.compare Pos.compare Pos.compare_cont Pos.eqb orb].
      rewrite (bind_Ret _ _ _ _ _ _ (readU8_at _ _ _ W A2)), (bind_Ret _ _ _ _ _ _ (readU8_at _ _ _ W A3)).
      replace ((a =? 17) || (b =? 17)) with false by (destruct Fa, Fb; unfold simple in *; lia).
      subst g. exact (por_run _ _ _ _ _ _ _ _ _ E1 E2). }
    rewrite (bind_Ret _ _ _ _ _ _ X). rewrite !zlen_cons, zlen_app. unfold ret. f_equal. lia.
Qed.

(** ** Arguments *)
Lemma calm_item e o r o' : wf e -> calm e -> 0 <= o <= blen e -> parse_item e o = (Ret r, o') ->
  exists bs, at_ e o (lv bs) /\ o' = o + zlen (lv bs) /\ o' <= blen e.
Proof.
  intros W [C N] I H. assert (I16 : in16 o) by (unfold in16; lia). destruct (item_inv _ _ _ _ W I16 H) as (w & V & A & E & L & _).
  pose proof (N o w ltac:(apply at_here; exact A) V) as Nw.
  destruct (length_leads e o w o' W I16 V A E L) as [G|(bs & Ab & Eb)]; [lia|]. exists bs. auto.
Qed.
Lemma args_app l a : args_bytes (l ++ [a]) = args_bytes l ++ raw_bytes a.
Proof. unfold args_bytes. rewrite map_app, concat_app. cbn [map List.concat]. rewrite app_nil_r. reflexivity. Qed.
Lemma args_cons a l : args_bytes (a :: l) = raw_bytes a ++ args_bytes l.
Proof. reflexivity. Qed.
Lemma raw_at e o nm vl ty : at_ e o (lv nm) -> at_ e (o + zlen (lv nm)) (lv vl) -> at_ e (o + zlen (lv nm) + zlen (lv vl)) ty -> at_ e o (raw_bytes (RawArg nm vl ty)).
Proof. intros A B C. unfold raw_bytes. cbn [r_name r_val r_ty]. rewrite !at_app. auto. Qed.
Lemma calm_rest e o nm r o' : wf e -> calm e -> 0 <= o -> at_ e o (lv nm) ->
  bind parse_item (fun _ => get_type 0) e (o + zlen (lv nm)) = (Ret r, o') ->
  exists a, r_name a = nm /\ readable a /\ at_ e o (raw_bytes a) /\ o' = o + zlen (raw_bytes a) /\ o' <= blen e.
Proof.
  intros W C I An H. pose proof (at_bound _ _ _ W An). pose proof (zlen_nonneg (lv nm)). bx H u q P.
  destruct (calm_item e (o + zlen (lv nm)) u q W C ltac:(lia) P) as (vl & Av & -> & Lv). pose proof (zlen_nonneg (lv vl)).
  destruct C as [C _]. assert (I2 : in16 (o + zlen (lv nm) + zlen (lv vl))) by (unfold in16; lia).
  destruct (type_inv _ _ _ _ _ W I2 H) as (ty & T & At & ->). pose proof (at_bound _ _ _ W At).
  exists (RawArg nm vl ty). split; [reflexivity|]. split; [exact T|]. split; [apply raw_at; auto|]. unfold raw_bytes. cbn [r_name r_val r_ty]. rewrite !zlen_app. lia.
Qed.
Lemma skip_inv e o r o' : wf e -> calm e -> 0 <= o <= blen e -> skip_arg e o = (Ret r, o') ->
  exists a, readable a /\ at_ e o (raw_bytes a) /\ o' = o + zlen (raw_bytes a) /\ o' <= blen e.
Proof.
  intros W C I H. unfold skip_arg in H. bx H u q P. destruct (calm_item _ _ _ _ W C I P) as (nm & An & -> & Ln).
  bx H u2 q2 P2. bx H t q3 T. apply ret_inv in H. destruct H as [_ ->].
  destruct (calm_rest e o nm t q3 W C ltac:(lia) An ltac:(rewrite (bind_Ret _ _ _ _ _ _ P2); exact T)) as (a & _ & R & A & E & L). exists a. auto.
Qed.
Lemma skips_inv e k : wf e -> calm e -> forall o r o', 0 <= o <= blen e ->
  iter_loop (R := unit) k (fun _ => bind skip_arg (fun _ => ret (Next tt))) tt e o = (Ret r, o') ->
  exists l, zlen l = Z.of_nat k /\ Forall readable l /\ at_ e o (args_bytes l) /\ o' = o + zlen (args_bytes l) /\ o' <= blen e.
Proof.
  intros W C. induction k as [|k IH]; intros o r o' I H; cbn [iter_loop] in H.
  - injection H as _ <-. exists []. destruct C as [C _]. split; [reflexivity|]. split; [constructor|]. split; [apply at_nil; auto; [unfold in16; lia|lia]|]. cbn. lia.
  - bx H f o1 B. bx B u o2 S1. apply ret_inv in B. destruct B as [-> ->]. destruct (skip_inv _ _ _ _ W C I S1) as (a & R & A & -> & L).
    pose proof (zlen_nonneg (raw_bytes a)). destruct (IH (o + zlen (raw_bytes a)) r o' ltac:(lia) H) as (l & Z1 & Fl & Al & -> & L2).
    exists (a :: l). rewrite zlen_cons, args_cons, at_app, zlen_app. split; [lia|]. split; [constructor; auto|]. split; [auto|]. lia.
Qed.
Lemma runtime_args_inv e o n r o' : wf e -> calm e -> 0 <= o <= blen e -> 0 <= n -> parseRuntimeArgs n e o = (Ret r, o') ->
  exists l, zlen l = n /\ Forall readable l /\ at_ e o (args_bytes l) /\ o' = o + zlen (args_bytes l) /\ o' <= blen e.
Proof.
  intros W C I N H. unfold parseRuntimeArgs in H. bx H f o1 L. apply ret_inv in H. destruct H as [_ ->]. rewrite loop_iter in L.
  destruct (skips_inv e _ W C _ _ _ I L) as (l & Z1 & X). exists l. split; [lia|exact X].
Qed.

(** ** Searches keep the cursor, or meet an argument that cannot be read *)
Definition gap (e : env) (n o : Z) : Prop :=
  exists l, Forall readable l /\ at_ e o (args_bytes l) /\ zlen l < n /\
    forall r, readable r -> zlen (r_name r) <= 300 -> ~ at_ e (o + zlen (args_bytes l)) (raw_bytes r).
Definition keeps {A} (n : Z) (p : P A) : Prop := forall e o, wf e -> calm e -> 0 <= o <= blen e ->
  match p e o with (Undef _, _) => True | (_, o') => o' = o \/ gap e n o end.
Lemma keeps_ret {A} n (a : A) : keeps n (ret a). Proof. intros e o W C I. left. reflexivity. Qed.
Lemma keeps_fail {A} n c : keeps n (@fail A c). Proof. intros e o W C I. left. reflexivity. Qed.
Lemma keeps_ask {A} n (f : env -> A) : keeps n (ask f). Proof. intros e o W C I. left. reflexivity. Qed.
Lemma keeps_check n b c : keeps n (check b c). Proof. unfold check. destruct b; [apply keeps_ret|apply keeps_fail]. Qed.
Lemma keeps_try {A} n (p : P A) : keeps n p -> keeps n (try p).
Proof. intros K e o W C I. specialize (K e o W C I). unfold try. destruct (p e o) as [[a|c|u] o1]; auto. Qed.
Lemma keeps_bind {A B} n (p : P A) (f : A -> P B) : keeps n p -> (forall a, keeps n (f a)) -> keeps n (bind p f).
Proof.
  intros K F e o W C I. specialize (K e o W C I). unfold bind. destruct (p e o) as [[a|c|u] o1]; auto.
  destruct K as [->|G]; [apply F; auto|]. destruct (f a e o1) as [[b|c|u] o2]; auto.
Qed.
Lemma search_keeps arg n : keeps n (searchRuntimeArgs arg n).
Proof.
  intros e o W C I. unfold searchRuntimeArgs. rewrite step_get_off. unfold bind at 1. rewrite loop_iter.
  assert (Io : u16 o = o) by (apply u16_small; destruct C; lia).
  assert (X : forall k q l, q = o + zlen (args_bytes l) -> Forall readable l -> at_ e o (args_bytes l) -> zlen l + Z.of_nat k = Z.of_nat (Z.to_nat n) ->
     match iter_loop k (search_body o arg) tt e q with (Ret (Done _), o') => o' = o | (Ret (Next _), _) => True | (Fail _, _) => gap e n o | (Undef _, _) => True end).
  { induction k as [|k IH]; intros q l Eq Fl Al Zl; cbn [iter_loop]; [exact Logic.I|].
    pose proof (at_bound _ _ _ W Al) as Bl. pose proof (zlen_nonneg (args_bytes l)). assert (Iq : 0 <= q <= blen e) by lia. destruct C as [C N].
    unfold bind at 1. destruct (search_body o arg tt e q) as [[f|c|u] q1] eqn:E; [| |exact Logic.I].
    - unfold search_body in E. bx E nm q2 CP. apply copy_item_inv in CP; [|auto|unfold in16; lia]. destruct CP as (An & Ln & ->).
      destruct (name_is nm arg).
      + bx E u1 q3 P1. bx E t q4 T1. bx E u2 q5 S1. apply ret_inv in E. destruct E as [-> ->]. apply set_off_inv in S1. cbv [ret]. lia.
      + bx E u1 q3 P1. bx E t q4 T1. apply ret_inv in E. destruct E as [-> ->].
        destruct (calm_rest e q nm t q4 W (conj C N) ltac:(lia) An ltac:(rewrite (bind_Ret _ _ _ _ _ _ P1); exact T1)) as (a & _ & R & A & Ea & L).
        apply (IH q4 (l ++ [a])).
        * rewrite args_app, zlen_app. lia.
        * apply Forall_app. auto.
        * rewrite args_app, at_app. rewrite <- Eq. auto.
        * rewrite zlen_app, zlen_cons, zlen_nil. lia.
    - exists l. split; [exact Fl|]. split; [exact Al|]. split; [pose proof (zlen_nonneg l); lia|]. intros r R Ln A. rewrite <- Eq in A. unfold raw_bytes in A. rewrite !at_app in A. destruct A as (A1 & A2 & A3).
      unfold search_body in E. rewrite (bind_Ret _ _ _ _ _ _ (copy_item_at 300 _ _ _ W A1 Ln)) in E.
      destruct (type_run _ 0 _ _ W R A3) as (ty & Ty).
      destruct (name_is (r_name r) arg); rewrite (bind_Ret _ _ _ _ _ _ (parse_item_at _ _ _ W A2)), (bind_Ret _ _ _ _ _ _ Ty) in E.
      + rewrite step_set_off in E by lia. discriminate E.
      + discriminate E. }
  assert (Nil : at_ e o []) by (destruct C; apply at_nil; auto; [unfold in16; lia|lia]).
  specialize (X (Z.to_nat n) o [] ltac:(cbn; lia) ltac:(constructor) Nil ltac:(cbn; lia)).
  destruct (iter_loop (Z.to_nat n) (search_body o arg) tt e o) as [[[s|t]|c|u] q].
  - left. exact Io.
  - left. exact X.
  - right. exact X.
  - exact Logic.I.
Qed.
#[export] Hint Resolve keeps_ret keeps_fail keeps_ask keeps_check search_keeps : keeps.
Ltac keeps :=
  match goal with
  | |- keeps _ (bind _ _) => apply keeps_bind; [keeps | intros; keeps]
  | |- keeps _ (try _) => apply keeps_try; keeps
  | |- keeps _ (let '_ := ?x in _) => destruct x; keeps
  | |- keeps _ (if ?x then _ else _) => destruct x; keeps
  | |- keeps _ (match ?x with _ => _ end) => destruct x; keeps
  | _ => eauto with keeps
  end.
Lemma CHECK_keeps n arg c : keeps n (CHECK_RUNTIME_ARGTYPE n arg c). Proof. unfold CHECK_RUNTIME_ARGTYPE. keeps. Qed.
Lemma COUNT_keeps n arg c f : keeps n (COUNT_RUNTIME_ARGTYPE n arg c f). Proof. unfold COUNT_RUNTIME_ARGTYPE. keeps. Qed.
#[export] Hint Resolve CHECK_keeps COUNT_keeps : keeps.
Lemma transfer_keeps i n : keeps n (parseNativeTransfer i n). Proof. unfold parseNativeTransfer, checkNativeTransferArgs. cbv zeta. keeps. Qed.
Lemma delegation_args_keeps i n r h : keeps n (parseDelegation_args i n r h).
Proof. unfold parseDelegation_args, checkForDelegationItems. cbv zeta. keeps. Qed.
Definition held {A} (n : Z) (p : P A) : Prop := forall e o r o', wf e -> calm e -> 0 <= o <= blen e -> p e o = (Ret r, o') -> o' = o \/ gap e n o.
Lemma keeps_held {A} n (p : P A) : keeps n p -> held n p.
Proof. intros K e o r o' W C I H. specialize (K e o W C I). rewrite H in K. exact K. Qed.
Lemma delegation_held i n r : held n (parseDelegation i n r).
Proof.
  unfold parseDelegation. destruct (dtype i =? ModuleBytes); [|apply keeps_held, delegation_args_keeps].
  intros e o a o' W C I H. bx H m o1 M.
  assert (o1 = o) as ->.
  { unfold parseDelegation_module in M. bx M s q G. apply get_off_inv in G. destruct G as [-> ->].
    repeat (apply bind_inv in M; destruct M as (? & ? & ? & M)).
    apply ret_inv in M. destruct M as [_ ->]. match goal with X : set_off _ _ _ = _ |- _ => apply set_off_inv in X end. rewrite u16_small in * by (destruct C; lia). assumption. }
  revert H. apply keeps_held; auto. apply delegation_args_keeps.
Qed.
Lemma transfer_held i n : held n (parseNativeTransfer i n). Proof. apply keeps_held, transfer_keeps. Qed.

(** ** Sessions *)
Definition args_or_gap (e : env) (n a o' : Z) : Prop :=
  (exists l, Forall readable l /\ zlen l = n /\ at_ e a (args_bytes l) /\ o' = a + zlen (args_bytes l)) \/ gap e n a.
Lemma args_part {A} e q (n : Z) (f : P A) r o' : wf e -> calm e -> 0 <= q <= blen e -> word n -> held n f ->
  bind f (fun _ => parseRuntimeArgs n) e q = (Ret r, o') -> args_or_gap e n q o'.
Proof.
  intros W C I V Hf H. bx H x o1 F. destruct (Hf _ _ _ _ W C I F) as [->|G]; [|right; exact G].
  unfold word in V. destruct (runtime_args_inv e q n r o' W C I ltac:(lia) H) as (l & Z1 & Fl & Al & -> & _). left. exists l. auto.
Qed.
Lemma off32_inv e o r o' : off32 e o = (Ret r, o') -> o' = o.
Proof. intros H. unfold off32 in H. pinv. reflexivity. Qed.
Lemma total_off s e o r o' : parseTotalLength s e o = (Ret r, o') -> o' = o.
Proof. intros H. unfold parseTotalLength, off32 in H. pinv. reflexivity. Qed.
Lemma word_inv e o n o' : wf e -> in16 o -> readU32 e o = (Ret n, o') -> word n /\ at_ e o (le 4 n) /\ o' = o + 4 /\ o' <= blen e.
Proof. intros W I H. apply readU32_inv in H; auto. destruct H as (V & A & L & ->). split; [exact V|]. split; [exact A|]. lia. Qed.
Lemma version_inv e o r o' : wf e -> in16 o -> parse_version e o = (Ret r, o') -> got e o version_bytes o'.
Proof.
  intros W I H. unfold parse_version in H. rd1 H t q Vt At It. subst q. destruct (t =? 0) eqn:E0.
  - apply ret_inv in H. destruct H as [_ ->]. exists [0]. replace t with 0 in At by lia. split; [left; reflexivity|]. split; [exact At|reflexivity].
  - destruct (t =? 1) eqn:E1; [|discriminate H]. destruct (word_inv _ _ _ _ W It H) as (V & A & -> & _). exists (1 :: le 4 r). replace t with 1 in At by lia.
    split; [right; exists r; auto|]. split; [apply at_here1; auto|]. rewrite zlen_cons, le_length. lia.
Qed.
Lemma entry_inv e o i r o' : wf e -> calm e -> 0 <= o <= blen e -> dtype i <> ModuleBytes ->
  bind (check_entrypoint i) (fun r => parseRuntimeArgs (snd (fst r))) e o = (Ret r, o') ->
  exists ep n, at_ e o (lv ep ++ le 4 n) /\ word n /\ args_or_gap e n (o + zlen (lv ep ++ le 4 n)) o'.
Proof.
  intros W C I D H. pose proof (proj1 C) as C1. unfold check_entrypoint in H. rewrite !bind_assoc in H. rewrite step_get_off in H.
  rewrite bind_assoc in H. bx H ep q1 CP. apply copy_item_inv in CP; [|auto|unfold in16; lia]. destruct CP as (Ae & _ & ->).
  pose proof (at_bound _ _ _ W Ae) as Be. pose proof (zlen_nonneg (lv ep)). rewrite bind_assoc, step_get_off in H. cbv zeta in H.
  rewrite bind_assoc in H. bx H n q2 R. apply word_inv in R; [|exact W|unfold in16; lia]. destruct R as (V & An & -> & Ln).
  exists ep, n. rewrite at_app, zlen_app, le_length. split; [auto|]. split; [exact V|]. replace (o + (zlen (lv ep) + Z.of_nat 4)) with (o + zlen (lv ep) + 4) by lia.
  rewrite bind_assoc in H.
  assert (I4 : 0 <= o + zlen (lv ep) + 4 <= blen e) by lia.
  match type of H with bind (parseDelegation ?i' n ?rd) _ _ _ = _ => apply (args_part e _ n (parseDelegation i' n rd) r o' W C I4 V); [apply delegation_held|] end.
  bx H x q3 P. rewrite (bind_Ret _ _ _ _ _ _ P). exact H.
Qed.
Lemma session_inv e o t r o' : wf e -> calm e -> 0 <= o <= blen e -> parseDeployItem_session t e o = (Ret r, o') ->
  exists hd n, session_head t hd /\ word n /\ at_ e o (hd ++ le 4 n) /\ args_or_gap e n (o + zlen (hd ++ le 4 n)) o'.
Proof.
  intros W C I H. pose proof (proj1 C) as C1. unfold parseDeployItem_session in H. cbv zeta in H.
  unfold ModuleBytes, StoredVersionedContractByHash, StoredContractByHash, StoredVersionedContractByName, StoredContractByName, Transfer in H.
  destruct (t =? 0) eqn:E0.
  { replace t with 0 in * by lia. bx H i q M. apply ret_inv in H. destruct H as [_ ->]. unfold parseModuleBytes_session in M.
    bx M s q1 O. apply off32_inv in O. subst q1. bx M u q2 P. destruct (calm_item _ _ _ _ W C I P) as (code & Ac & -> & Lc). pose proof (zlen_nonneg (lv code)).
    bx M n q3 R. apply word_inv in R; [|exact W|unfold in16; lia]. destruct R as (V & An & -> & Ln).
    exists (lv code), n. split; [constructor|]. split; [exact V|]. rewrite at_app, zlen_app, le_length. split; [auto|]. replace (o + (zlen (lv code) + Z.of_nat 4)) with (o + zlen (lv code) + 4) by lia.
    bx M i1 q4 D. bx M u1 q5 A. bx M tl q6 T. apply total_off in T. subst q6. apply ret_inv in M. destruct M as [_ ->].
    eapply args_part; [exact W|exact C|lia|exact V|apply delegation_held|]. rewrite (bind_Ret _ _ _ _ _ _ D). exact A. }
  destruct ((t =? 3) || (t =? 1)) eqn:E1.
  { unfold parseStoredContractByHash, StoredVersionedContractByHash in H. bx H s q1 O. apply off32_inv in O. subst q1. bx H u q2 Ad. apply advance_inv in Ad. rewrite u16_small in Ad by lia. subst q2.
    bx H u2 q3 Vr. cbn [dtype init_item] in Vr.
    assert (Lo : o + 32 <= blen e /\ exists v, (if t =? 3 then version_bytes v else v = []) /\ at_ e (o + 32) v /\ q3 = o + 32 + zlen v).
    { destruct (t =? 3) eqn:E3.
      - bx Vr vv q4 Pv. apply ret_inv in Vr. destruct Vr as [_ ->]. apply version_inv in Pv; [|exact W|unfold in16; lia]. destruct Pv as (v & Kv & Av & ->).
        pose proof (at_bound _ _ _ W Av). pose proof (zlen_nonneg v). split; [lia|]. exists v. auto.
      - apply ret_inv in Vr. destruct Vr as [_ ->]. bx H x q5 Ck. unfold check_entrypoint in Ck. rewrite step_get_off in Ck. bx Ck ep q6 CP.
        apply copy_item_inv in CP; [|auto|unfold in16; lia]. destruct CP as (Ae & _ & _). pose proof (at_bound _ _ _ W Ae). pose proof (zlen_nonneg (lv ep)).
        split; [lia|]. exists []. split; [reflexivity|]. split; [apply at_nil; auto; [unfold in16; lia|lia]|]. rewrite zlen_nil. lia. }
    destruct Lo as (Lo & v & Kv & Av & ->). pose proof (at_bound _ _ _ W Av). pose proof (zlen_nonneg v).
    destruct (at_total e o 32 W ltac:(lia) ltac:(lia) Lo) as (h & Ah & Lh).
    assert (E2 : bind (check_entrypoint (init_item t)) (fun r => parseRuntimeArgs (snd (fst r))) e (o + 32 + zlen v) = (Ret tt, o')).
    { bx H x q5 Ck. bx H u3 q6 A. bx H tl q7 T. apply total_off in T. subst q7. apply ret_inv in H. destruct H as [_ ->].
      rewrite (bind_Ret _ _ _ _ _ _ Ck). destruct u3. exact A. }
    destruct (entry_inv e (o + 32 + zlen v) (init_item t) tt o' W C ltac:(lia) ltac:(cbn [dtype init_item]; unfold ModuleBytes; lia) E2) as (ep & n & Ae & V & G).
    exists (h ++ v ++ lv ep), n. rewrite at_app, zlen_app in *. rewrite !zlen_app, !at_app, Lh, le_length in *. split.
    { destruct (t =? 3) eqn:E3.
      - replace t with 3 by lia. constructor; auto.
      - subst v. replace t with 1 by lia. constructor. exact Lh. }
    split; [exact V|]. destruct Ae as [Ae An]. split.
    { split; [split; [exact Ah|]; split; [exact Av|exact Ae]|]. replace (o + (32 + (zlen v + zlen (lv ep)))) with (o + 32 + zlen v + zlen (lv ep)) by lia. exact An. }
    replace (o + (32 + (zlen v + zlen (lv ep)) + Z.of_nat 4)) with (o + 32 + zlen v + (zlen (lv ep) + Z.of_nat 4)) by lia. exact G. }
  destruct ((t =? 4) || (t =? 2)) eqn:E2.
  { unfold parseStoredContractByName, StoredVersionedContractByName in H. bx H s q1 O. apply off32_inv in O. subst q1.
    bx H u q2 P. destruct (calm_item _ _ _ _ W C I P) as (nm & Ac & -> & Lc). pose proof (zlen_nonneg (lv nm)).
    bx H u2 q3 Vr. cbn [dtype init_item] in Vr.
    assert (Lo : exists v, (if t =? 4 then version_bytes v else v = []) /\ at_ e (o + zlen (lv nm)) v /\ q3 = o + zlen (lv nm) + zlen v).
    { destruct (t =? 4) eqn:E4.
      - bx Vr vv q4 Pv. apply ret_inv in Vr. destruct Vr as [_ ->]. apply version_inv in Pv; [|exact W|unfold in16; lia]. destruct Pv as (v & Kv & Av & ->). exists v. auto.
      - apply ret_inv in Vr. destruct Vr as [_ ->]. exists []. split; [reflexivity|]. split; [apply at_nil; auto; unfold in16; lia|]. rewrite zlen_nil. lia. }
    destruct Lo as (v & Kv & Av & ->). pose proof (at_bound _ _ _ W Av). pose proof (zlen_nonneg v).
    assert (E3 : bind (check_entrypoint (init_item t)) (fun r => parseRuntimeArgs (snd (fst r))) e (o + zlen (lv nm) + zlen v) = (Ret tt, o')).
    { bx H x q5 Ck. bx H u3 q6 A. bx H tl q7 T. apply total_off in T. subst q7. apply ret_inv in H. destruct H as [_ ->].
      rewrite (bind_Ret _ _ _ _ _ _ Ck). destruct u3. exact A. }
    destruct (entry_inv e (o + zlen (lv nm) + zlen v) (init_item t) tt o' W C ltac:(lia) ltac:(cbn [dtype init_item]; unfold ModuleBytes; lia) E3) as (ep & n & Ae & V & G).
    exists (lv nm ++ v ++ lv ep), n. rewrite at_app, zlen_app in *. rewrite !zlen_app, !at_app, le_length in *. split.
    { destruct (t =? 4) eqn:E4.
      - replace t with 4 by lia. constructor; auto.
      - subst v. replace t with 2 by lia. constructor. }
    split; [exact V|]. destruct Ae as [Ae An]. split.
    { split; [split; [exact Ac|]; split; [exact Av|exact Ae]|]. replace (o + (zlen (lv nm) + (zlen v + zlen (lv ep)))) with (o + zlen (lv nm) + zlen v + zlen (lv ep)) by lia. exact An. }
    replace (o + (zlen (lv nm) + (zlen v + zlen (lv ep)) + Z.of_nat 4)) with (o + zlen (lv nm) + zlen v + (zlen (lv ep) + Z.of_nat 4)) by lia. exact G. }
  destruct (t =? 5) eqn:E5; [|discriminate H]. replace t with 5 by lia.
  bx H i q M. apply ret_inv in H. destruct H as [_ ->]. unfold parseTransfer in M. bx M s q1 O. apply off32_inv in O. subst q1.
  bx M n q3 R. apply word_inv in R; [|exact W|unfold in16; lia]. destruct R as (V & An & -> & Ln).
  exists [], n. split; [constructor|]. split; [exact V|]. cbn [app]. split; [exact An|]. rewrite le_length. change (o + Z.of_nat 4) with (o + 4).
  bx M i1 q4 D. bx M u1 q5 A. bx M tl q6 T. apply total_off in T. subst q6. apply ret_inv in M. destruct M as [_ ->].
  eapply args_part; [exact W|exact C|lia|exact V|apply transfer_held|]. rewrite (bind_Ret _ _ _ _ _ _ D). exact A.
Qed.

(** ** Accepted deploys *)
Lemma at_pos e o p bs : at_ e o bs -> o = p -> at_ e p bs.
Proof. intros A <-. exact A. Qed.
Lemma cstr_split nm s : cstr nm = s -> nm = s \/ exists more, nm = s ++ 0 :: more.
Proof.
  revert s. induction nm as [|b nm IH]; intros s E; cbn [cstr] in E; [subst s; auto|].
  destruct (b =? 0) eqn:Eb; [subst s; right; exists nm; apply Z.eqb_eq in Eb; subst b; reflexivity|].
  destruct s as [|c s]; [discriminate|]. injection E as -> E. destruct (IH s E) as [-> |(more & ->)]; [left; reflexivity|right; exists more; reflexivity].
Qed.
Lemma accepted_session_at pf x data v :
  hash32 (p_hash pf) -> bytes data -> zlen data < 65472 -> no_leap data ->
  tx_parse pf x (0 :: data) = Ret (TDeploy v) ->
  exists hdr dh pay ses rest alg key f24 post,
    data = hdr ++ dh ++ pay ++ ses ++ rest /\ zlen dh = 32 /\ p_hash pf hdr = dh /\
    data = [alg] ++ key ++ f24 ++ p_hash pf (pay ++ ses) ++ post /\
    (alg = 1 /\ zlen key = 32 \/ alg = 2 /\ zlen key = 33) /\ zlen f24 = 24 /\
    zlen (hdr ++ dh ++ pay ++ ses) = snd (parse_content 0 (ctx_of pf x false 40 data (zlen data)) 0) /\
    payment_bytes pay /\ (session_bytes ses \/ unreadable (ses ++ rest)) /\ zlen hdr = header_length_deploy (dheader v).
Proof.
  intros Hh B L N H. assert (L' : zlen data < 65535) by lia.
  destruct (accepted_deploy _ _ _ _ Hh B L' H) as (W & o1 & o2 & t & o3 & its & o4 & hdr & dh & body & bh & RD & RP & At & Tr & RS & Dt & Ct
     & It & L1 & L2 & L3 & T1 & T2 & PK & A0 & S1 & S2 & H1 & S3 & S4 & H2).
  destruct (hashes_checked _ _ _ _ Hh B L' H) as (hdr' & dh' & body' & rest & alg & key & f24 & bh' & post & E1 & Zd & Hd & E2 & Ka & Zf & Zb & Hb & Cu & Zh & _).
  set (e := ctx_of pf x false 40 data (zlen data)) in *. set (h := dheader v) in *.
  pose proof (header_len_range h) as HL.
  assert (Ip : in16 (header_length_deploy h + 32)) by (unfold in16; lia).
  assert (C : calm e) by (split; [change (blen e) with (zlen data); lia|exact N]).
  destruct (payment_fixed _ _ _ _ W Ip RP) as (P1 & P2 & P3 & _).
  destruct (shown_all pf x 40 data v Hh B L' H) as [NI K]. destruct (K (if x then 8 else 4)) as [(it & IT) _].
  { destruct x; lia. }
  pose proof (tx_item pf x 40 data v (if x then 8 else 4) Hh B L' H) as TI. fold e in TI.
  rewrite TI in IT. destruct (getItemDeploy v (if x then 8 else 4) e 0) as [g og] eqn:G. cbn [fst] in IT. subst g.
  destruct (fee_item v e 0 it og P1 P2 P3 G) as (o5 & SP). fold h in SP. rewrite u16_small in SP by lia.
  destruct (payment_shape v e _ _ _ _ W Ip RP SP) as (code & nm & val & A & Eo & Cn & _).
  set (pay := [0] ++ _) in *.
  assert (Cu2 : snd (parse_content 0 e 0) = o2) by (unfold parse_content; change (0 =? content_Deploy) with true; cbv iota; unfold bind; rewrite RD; reflexivity).
  rewrite Cu2 in Cu. rewrite !zlen_app, Zd, Zh in Cu.
  (* the body *)
  pose proof (at_bound _ _ _ W A) as Ba. pose proof (zlen_nonneg pay).
  assert (Ab : at_ e (header_length_deploy h + 32) body').
  { apply at_here. exists (hdr' ++ dh'), rest. split; [rewrite <- app_assoc; exact E1|]. change (@S.len Z) with (@zlen Z). rewrite zlen_app. lia. }
  assert (Sp : exists ses, body' = pay ++ ses).
  { unfold at_ in A, Ab. apply slice_Some in A. destruct A as (pr & po & Em & Lp & _). apply slice_Some in Ab. destruct Ab as (pr2 & po2 & Em2 & Lp2 & _).
    rewrite Em in Em2. destruct (app_inj_len _ _ _ _ Em2) as [_ E3]; [unfold zlen in *; lia|].
    exists (skipn (List.length pay) body'). rewrite <- (firstn_skipn (List.length pay) body') at 1. f_equal.
    assert (X : firstn (List.length pay) (pay ++ po) = firstn (List.length pay) (body' ++ po2)) by (rewrite E3; reflexivity).
    rewrite !firstn_app, Nat.sub_diag, firstn_all in X. cbn [firstn] in X. rewrite app_nil_r in X.
    replace (List.length pay - List.length body')%nat with 0%nat in X by (unfold zlen in *; lia). cbn [firstn] in X. rewrite app_nil_r in X. auto. }
  destruct Sp as (ses & ->). rewrite zlen_app in Cu. apply at_app in Ab. destruct Ab as [_ As]. rewrite <- Eo in As.
  assert (Ws : at_ e o1 (ses ++ rest)).
  { apply at_here. exists (hdr' ++ dh' ++ pay), []. rewrite app_nil_r. split; [cbn [mem e ctx_of]; rewrite E1, <- !app_assoc; reflexivity|].
    change (@S.len Z) with (@zlen Z). rewrite !zlen_app. lia. }
  assert (Io : 0 <= o1 + 1 <= blen e) by (change (blen e) with (zlen data); lia).
  destruct (session_inv _ _ _ _ _ W C Io RS) as (hd & n & Hs & V & Ah & R).
  assert (Hx : at_ e o1 (t :: hd ++ le 4 n)) by (apply at_here1; auto).
  assert (Ext : forall q, at_ e (o1 + 1 + zlen (hd ++ le 4 n)) q -> exists more, ses ++ rest = (t :: hd ++ le 4 n) ++ q ++ more).
  { intros q Aq. assert (Y : at_ e o1 ((t :: hd ++ le 4 n) ++ q)).
    { apply at_app. split; [exact Hx|]. eapply at_pos; [exact Aq|]. rewrite zlen_cons. lia. }
    unfold at_ in Y, Ws. apply slice_Some in Y. destruct Y as (pr & po & Em & Lp & _). apply slice_Some in Ws. destruct Ws as (pr2 & po2 & Em2 & Lp2 & _).
    rewrite Em in Em2. destruct (app_inj_len _ _ _ _ Em2) as [_ E3]; [unfold zlen in *; lia|].
    assert (Zpo : po2 = []).
    { assert (Zm : zlen (mem e) = zlen data) by reflexivity. rewrite Em, Em2 in Zm. rewrite E1 in Zm. rewrite !zlen_app in Zm. destruct po2; [reflexivity|].
      rewrite zlen_cons in Zm. pose proof (zlen_nonneg po2). lia. }
    subst po2. rewrite app_nil_r in E3. exists po. rewrite <- E3, <- app_assoc. reflexivity. }
  exists hdr', dh', pay, ses, rest, alg, key, f24, post. rewrite Cu2.
  split; [rewrite E1, <- app_assoc; reflexivity|]. split; [exact Zd|]. split; [exact Hd|]. split; [rewrite Hb; exact E2|].
  split; [exact Ka|]. split; [exact Zf|]. split; [rewrite !zlen_app; lia|].
  split; [exists code, nm, val; split; [reflexivity|apply cstr_split, Cn]|]. split; [|exact Zh].
  destruct R as [(l & Fl & Zl & Al & El)|(l & Fl & Al & Zl & No)].
  - left. exists t, hd, l. split; [exact Hs|]. split; [exact Fl|]. destruct (Ext _ Al) as (more & Em).
    change (S.len l) with (zlen l). rewrite Zl. change (t :: hd ++ le 4 n ++ args_bytes l) with ((t :: hd) ++ le 4 n ++ args_bytes l).
    assert (Q : (t :: hd ++ le 4 n) ++ args_bytes l = (t :: hd) ++ le 4 n ++ args_bytes l) by (cbn [app]; rewrite <- app_assoc; reflexivity).
    rewrite <- Q. rewrite app_assoc in Em. destruct (app_inj_len _ _ _ _ Em) as [Es _]; [|exact Es].
    assert (zlen ses = zlen ((t :: hd ++ le 4 n) ++ args_bytes l)) as Z0 by (rewrite zlen_app, zlen_cons; lia). unfold zlen in Z0. lia.
  - right. destruct (Ext _ Al) as (more & Em). exists t, hd, n, l, more. split; [exact Hs|]. split; [exact Fl|].
    split; [rewrite Em; cbn [app]; rewrite <- app_assoc; reflexivity|]. split; [exact Zl|]. split; [exact V|].
    intros r po Rr Lr ->. apply (No r Rr Lr). unfold at_ in Ws. rewrite Em in Ws. fold (at_ e o1 ((t :: hd ++ le 4 n) ++ args_bytes l ++ raw_bytes r ++ po)) in Ws.
    rewrite !at_app in Ws. destruct Ws as (_ & _ & Wr & _). eapply at_pos; [exact Wr|]. rewrite zlen_cons. lia.
Qed.
Lemma accepted_session pf x data v :
  hash32 (p_hash pf) -> bytes data -> zlen data < 65472 -> no_leap data ->
  tx_parse pf x (0 :: data) = Ret (TDeploy v) ->
  exists hdr dh pay ses rest alg key f24 post,
    data = hdr ++ dh ++ pay ++ ses ++ rest /\ zlen dh = 32 /\ p_hash pf hdr = dh /\
    data = [alg] ++ key ++ f24 ++ p_hash pf (pay ++ ses) ++ post /\
    (alg = 1 /\ zlen key = 32 \/ alg = 2 /\ zlen key = 33) /\ zlen f24 = 24 /\
    zlen (hdr ++ dh ++ pay ++ ses) = snd (parse_content 0 (ctx_of pf x false 40 data (zlen data)) 0) /\
    payment_bytes pay /\ (session_bytes ses \/ unreadable (ses ++ rest)).
Proof.
  intros Hh B L N H. destruct (accepted_session_at _ _ _ _ Hh B L N H) as (hdr & dh & pay & ses & rest & alg & key & f24 & post & E1 & Zd & Hd & E2 & Ka & Zf & Zc & Pb & Sb & _).
  exists hdr, dh, pay, ses, rest, alg, key, f24, post. repeat (split; [assumption|]). exact Sb.
Qed.

(** ** Accepted deploys as encodings *)
Lemma type_exact it e o o' : wf e -> 0 <= o < 65536 ->
  ((exists r, get_type it e o = (Ret r, o')) <-> exists ty, type_bytes ty /\ here (mem e) o ty /\ o' = o + zlen ty).
Proof.
  intros W I. split.
  - intros (r & H). destruct (type_inv _ _ _ _ _ W I H) as (ty & T & A & E). exists ty. split; [exact T|]. split; [apply at_here, A|exact E].
  - intros (ty & T & A & ->). apply type_run; auto. apply at_here, A.
Qed.
Lemma le_of p : bytes p -> zlen p = 4 -> p = le 4 (value p) /\ 0 <= value p < 4294967296.
Proof.
  intros B L. assert (L4 : List.length p = 4%nat) by (unfold zlen in L; lia). split; [rewrite (le_value 4 p B L4); reflexivity|].
  pose proof (value_bound p B). rewrite L in *. lia.
Qed.
Lemma bytes_cons x p : bytes (x :: p) -> bytes p. Proof. intros B. inversion B. assumption. Qed.
Lemma bytes_app1 a b : bytes (a ++ b) -> bytes a /\ bytes b. Proof. intros B. apply Forall_app in B. exact B. Qed.
Lemma leaf_type a p : bytes p -> component a -> parameter a p -> exists t, leaf t = true /\ a :: p = enc_type t.
Proof.
  intros B C [[-> L]|[N ->]].
  - destruct (le_of p B L) as [E R]. exists (CByteArray (value p)). cbn [leaf enc_type]. split; [lia|]. rewrite <- E. reflexivity.
  - exists (Prim a). unfold component in C. cbn [leaf enc_type]. unfold prim_tag. split; [lia|reflexivity].
Qed.
Lemma plain_comp a p : component a -> a <> 15 -> parameter a p -> plain (Prim a) = true /\ p = [].
Proof. intros C N [[E _]|[_ ->]]; [contradiction|]. unfold component in C. cbn [plain]. unfold prim_tag. split; [lia|reflexivity]. Qed.
Lemma flat_type t p : bytes p -> flat t p -> (exists ty, supported1 ty = true /\ t :: p = enc_type ty) \/ early t p.
Proof.
  intros B F. destruct F.
  - left. exists (Prim t). unfold simple in H. cbn [supported1 enc_type]. unfold prim_tag. split; [lia|reflexivity].
  - left. destruct (le_of p B H) as [E R]. exists (CByteArray (value p)). cbn [supported1 enc_type]. split; [lia|]. rewrite <- E. reflexivity.
  - left. exists (CList (Prim 21)). split; reflexivity.
  - left. destruct (leaf_type a p (bytes_cons _ _ B) H0 H1) as (ty & L & E). destruct H as [-> | [-> | ->]].
    + exists (COption ty). cbn [supported1 enc_type]. rewrite L, E. auto.
    + exists (CList ty). cbn [supported1 enc_type]. rewrite L, E. auto.
    + exists (CTuple1 ty). cbn [supported1 enc_type]. rewrite L, E. auto.
  - destruct (Z.eq_dec a 15) as [->|N]; [right; constructor; auto|left].
    destruct (plain_comp a p H0 N H2) as [Pa ->]. cbn [app] in *. destruct (leaf_type b q) as (ty & L & E); auto.
    { apply bytes_cons, bytes_cons in B. exact B. }
    destruct H as [-> | ->].
    + exists (CResult (Prim a) ty). cbn [supported1 enc_type app]. rewrite Pa, L, E. auto.
    + exists (CTuple2 (Prim a) ty). cbn [supported1 enc_type app]. rewrite Pa, L, E. auto.
  - destruct (Z.eq_dec a 15) as [->|Na]; [right; apply e_three; auto|]. destruct (Z.eq_dec b 15) as [->|Nb]; [right; apply e_three; auto|]. left.
    destruct (plain_comp a p H Na H2) as [Pa ->]. destruct (plain_comp b q H0 Nb H3) as [Pb ->]. cbn [app] in *. destruct (leaf_type c r) as (ty & L & E); auto.
    { apply bytes_cons, bytes_cons, bytes_cons in B. exact B. }
    exists (CTuple3 (Prim a) (Prim b) ty). cbn [supported1 enc_type app]. rewrite Pa, Pb, L, E. auto.
Qed.
Lemma supported1_ok t : supported1 t = true -> supported t = true.
Proof. destruct t; auto. discriminate. Qed.
Lemma type_classes ty : bytes ty -> type_bytes ty -> (exists t, supported t = true /\ ty = enc_type t) \/ odd_type ty.
Proof.
  intros B T. destruct T as [t p F|a b p q Fa Fb].
  - destruct (flat_type t p (bytes_cons _ _ B) F) as [(ty & S1 & E)|Y]; [left; exists ty; auto using supported1_ok|right; constructor; exact Y].
  - apply bytes_cons in B. pose proof (bytes_cons _ _ B) as B2. apply bytes_cons in B2. apply bytes_app1 in B2. destruct B2 as [Bp Bq].
    assert (K : simple a /\ p = [] \/ ~ simple a) by (destruct Fa; unfold simple in *; auto; right; lia).
    destruct K as [[Sa ->]|Na]; [|right; apply o_key; auto].
    destruct (flat_type b q Bq Fb) as [(ty & S1 & E)|Y]; [left|right; apply (o_value a b q); auto].
    exists (CMap (Prim a) ty). unfold simple in Sa. cbn [supported enc_type app]. unfold prim_tag. rewrite S1. split; [lia|]. rewrite <- E. reflexivity.
Qed.
Lemma args_classes l : bytes (args_bytes l) -> Forall readable l ->
  (exists args, args_bytes l = enc_arg_list args /\ zlen args = zlen l /\ Forall (fun a => supported (a_ty a) = true) args) \/ Exists (fun r => odd_type (r_ty r)) l.
Proof.
  intros B F. induction F as [|r l R F IH]; [left; exists []; auto|]. rewrite args_cons in B. apply bytes_app1 in B. destruct B as [Br Bl].
  unfold raw_bytes in Br. apply bytes_app1 in Br. destruct Br as [_ Br]. apply bytes_app1 in Br. destruct Br as [_ Bt].
  destruct (type_classes _ Bt R) as [(t & St & E)|O]; [|right; constructor; exact O].
  destruct (IH Bl) as [(args & Ea & Za & Fa)|X]; [left|right; apply Exists_cons_tl, X].
  exists (Arg (r_name r) (r_val r) t :: args). rewrite args_cons, enc_arg_list_cons, Ea, !zlen_cons, Za. split; [|split; [reflexivity|constructor; auto]].
  unfold raw_bytes, enc_arg. cbn [a_name a_val a_ty]. rewrite E. reflexivity.
Qed.
Lemma session_classes s : bytes s -> session_bytes s -> (exists i, s = SD.enc_session i /\ form_session i) \/ odd_session s.
Proof.
  intros B (t & hd & l & Hd & F & E).
  assert (Bl : bytes (args_bytes l)). { rewrite E in B. apply bytes_cons, bytes_app1 in B. destruct B as [_ B]. apply bytes_app1 in B. apply B. }
  destruct (args_classes l Bl F) as [(args & Ea & Za & Fa)|O]; [left|right; exists t, hd, l; auto].
  assert (Ee : le 4 (S.len l) ++ args_bytes l = enc_args args).
  { unfold enc_args. change (S.len args) with (zlen args). rewrite Za, Ea. reflexivity. }
  rewrite Ee in E. clear Ea Za. destruct Hd.
  - exists (SD.Module code args). cbn [SD.enc_session]. split; [exact E|]. split; [exact Fa|exact Logic.I].
  - exists (SD.Stored (SD.ByHash h) ep args). cbn [SD.enc_session SD.enc_target]. split; [rewrite E, <- app_assoc; reflexivity|]. split; [exact Fa|exact H].
  - exists (SD.Stored (SD.ByName nm) ep args). cbn [SD.enc_session SD.enc_target]. split; [rewrite E, <- app_assoc; reflexivity|]. split; [exact Fa|exact Logic.I].
  - destruct H0 as [-> |(n & -> & V)]; [exists (SD.Stored (SD.ByHashV h None) ep args)|exists (SD.Stored (SD.ByHashV h (Some n)) ep args)]; cbn [SD.enc_session SD.enc_target SD.enc_ver];
      (split; [rewrite E; cbn [app]; rewrite <- ?app_assoc; cbn [app]; rewrite <- ?app_assoc; reflexivity|]); (split; [exact Fa|split; [exact H|]]); [exact Logic.I|exact V].
  - destruct H as [-> |(n & -> & V)]; [exists (SD.Stored (SD.ByNameV nm None) ep args)|exists (SD.Stored (SD.ByNameV nm (Some n)) ep args)]; cbn [SD.enc_session SD.enc_target SD.enc_ver];
      (split; [rewrite E; cbn [app]; rewrite <- ?app_assoc; cbn [app]; rewrite <- ?app_assoc; reflexivity|]); (split; [exact Fa|]); [exact Logic.I|exact V].
  - exists (SD.Transfer args). split; [exact E|]. split; [exact Fa|exact Logic.I].
Qed.

Lemma chunks n : forall d : list Z, zlen d = 32 * Z.of_nat n -> exists l, List.concat l = d /\ zlen l = Z.of_nat n /\ Forall (fun x : list Z => zlen x = 32) l.
Proof.
  induction n as [|n IH]; intros d Zd.
  - exists []. split; [|split; [reflexivity|constructor]]. destruct d; [reflexivity|]. rewrite zlen_cons in Zd. pose proof (zlen_nonneg d). lia.
  - destruct (IH (skipn 32 d)) as (l & E & Zl & F). { unfold zlen in *. rewrite skipn_length. lia. }
    exists (firstn 32 d :: l). split; [cbn [List.concat]; rewrite E; apply firstn_skipn|]. split; [rewrite zlen_cons; lia|].
    constructor; [|exact F]. unfold zlen in *. rewrite firstn_length. lia.
Qed.
Lemma le8_of p : bytes p -> zlen p = 8 -> p = le 8 (value p) /\ 0 <= value p < 2 ^ 64.
Proof.
  intros B L. assert (L8 : List.length p = 8%nat) by (unfold zlen in L; lia). split; [rewrite (le_value 8 p B L8); reflexivity|].
  pose proof (value_bound p B). rewrite L in *. lia.
Qed.
Lemma cut n (p : list Z) : 0 <= n <= zlen p -> exists a b, p = a ++ b /\ zlen a = n /\ zlen b = zlen p - n.
Proof.
  intros R. exists (firstn (Z.to_nat n) p), (skipn (Z.to_nat n) p). split; [symmetry; apply firstn_skipn|]. unfold zlen in *. rewrite firstn_length, skipn_length. lia.
Qed.
Lemma accepted_encoding pf x data v :
  hash32 (p_hash pf) -> bytes data -> zlen data < 65472 -> no_leap data ->
  tx_parse pf x (0 :: data) = Ret (TDeploy v) ->
  crowded data \/
  exists h pay ses rest,
    data = SD.enc_header h ++ p_hash pf (SD.enc_header h) ++ pay ++ ses ++ rest /\
    form_header h /\ SD.h_bodyhash h = p_hash pf (pay ++ ses) /\ payment_bytes pay /\
    zlen (SD.enc_header h ++ p_hash pf (SD.enc_header h) ++ pay ++ ses) = snd (parse_content 0 (ctx_of pf x false 40 data (zlen data)) 0) /\
    ((exists i, ses = SD.enc_session i /\ form_session i) \/ odd_session ses \/ unreadable (ses ++ rest)).
Proof.
  intros Hh B L N H. assert (L' : zlen data < 65535) by lia.
  destruct (accepted_deploy _ _ _ _ Hh B L' H) as (W & o1 & o2 & t & o3 & its & o4 & hdr & dh & body & bh & RD & RP & At & Tr & RS & Dt & Ct
     & It & L1 & L2 & L3 & T1 & T2 & PK & A0 & S1 & S2 & H1 & S3 & S4 & H2).
  destruct (deploy_inv _ _ _ W RD) as (q1 & t' & _ & _ & Nd & _ & A1 & _).
  set (e := ctx_of pf x false 40 data (zlen data)) in *. set (hd := dheader v) in *.
  destruct (Z_lt_le_dec (lenDependencies hd) 2042) as [Ld|Ld].
  2: { left. pose proof (at_bound _ _ _ W A1) as B1. rewrite le_length in B1.
    assert (0 <= pubkeyLen hd) by (unfold pubkeyLen; destruct (_ =? 2); lia).
    assert (PL : pubkeyLen hd = 1 + SD.key_len (pubkeytype hd)) by (unfold pubkeyLen, SD.key_len; destruct (_ =? 2); lia).
    destruct (at_total e 1 (pubkeyLen hd + 55) W) as (mid & Am & Zm); [lia..|].
    assert (A : at_ e 0 (pubkeytype hd :: mid ++ le 4 (lenDependencies hd))).
    { apply at_here1. split; [exact A0|]. apply at_app. split; [exact Am|]. eapply at_pos; [exact A1|lia]. }
    apply at_here in A. destruct A as (pre & post & E & Lp). change (mem e) with data in E. change (@S.len Z) with (@zlen Z) in Lp.
    destruct pre; [|rewrite zlen_cons in Lp; pose proof (zlen_nonneg pre); lia].
    exists (pubkeytype hd), mid, (lenDependencies hd), post. split; [rewrite E; cbn [app]; rewrite <- app_assoc; reflexivity|].
    change (@S.len Z) with (@zlen Z). split; [lia|]. split; [exact Nd|exact Ld]. }
  right.
  assert (Nd' : 0 <= lenDependencies hd) by apply Nd.
  destruct (accepted_bound _ _ _ _ Hh B L' H) as (alg & key & f24 & bh' & deps & chain & dh' & body' & rest & Z0). { fold hd. lia. }
  cbv zeta in Z0. fold hd in Z0. rewrite (Z.mod_small (lenDependencies hd)) in Z0 by lia.
  destruct Z0 as (E1 & Ka & Zf & Zb & Zd & Zdeps & Hd & Hb & Zh & Cu). fold e in Cu.
  destruct (accepted_session_at _ _ _ _ Hh B L N H) as (hdr2 & dh2 & pay & ses & rest2 & alg2 & key2 & f2 & post2 & E2 & Zd2 & Hd2 & _ & _ & _ & Cu2 & Pb & Sb & Zh2). fold hd in Zh2. fold e in Cu2.
  assert (Eb : body' = pay ++ ses /\ rest = rest2).
  { rewrite E1 in E2. destruct (app_inj_len _ _ _ _ E2) as [<- E3]; [apply zlen_nat; lia|]. destruct (app_inj_len _ _ _ _ E3) as [-> E4]; [apply zlen_nat; lia|].
    rewrite (app_assoc pay) in E4. apply app_inj_len in E4; [exact E4|]. apply zlen_nat. rewrite !zlen_app in *. lia. }
  destruct Eb as [-> <-].
  destruct (chunks (Z.to_nat (lenDependencies hd)) deps) as (l & El & Zl & Fl); [lia|].
  assert (Bh : bytes ([alg] ++ key ++ f24 ++ bh' ++ le 4 (lenDependencies hd) ++ deps ++ lv chain)) by (rewrite E1 in B; apply bytes_app1 in B; apply B).
  cbn [app] in Bh. apply bytes_cons, bytes_app1 in Bh. destruct Bh as [_ Bh]. apply bytes_app1 in Bh. destruct Bh as [Bf _].
  destruct (cut 8 f24) as (t1 & r1 & Ef & Z1 & Zr1); [lia|]. destruct (cut 8 r1) as (t2 & t3 & Er & Z2 & Z3); [lia|]. subst r1 f24.
  apply bytes_app1 in Bf. destruct Bf as [Bt1 Bf]. apply bytes_app1 in Bf. destruct Bf as [Bt2 Bt3].
  destruct (le8_of t1 Bt1 Z1) as [F1 R1]. destruct (le8_of t2 Bt2 Z2) as [F2 R2]. destruct (le8_of t3 Bt3) as [F3 R3]; [lia|].
  set (h := SD.Header alg key (value t1) (value t2) (value t3) bh' l chain).
  assert (Eh : SD.enc_header h = [alg] ++ key ++ (t1 ++ t2 ++ t3) ++ bh' ++ le 4 (lenDependencies hd) ++ deps ++ lv chain).
  { unfold SD.enc_header, h. cbn [SD.h_alg SD.h_key SD.h_time SD.h_ttl SD.h_gas SD.h_bodyhash SD.h_deps SD.h_chain].
    rewrite <- F1, <- F2, <- F3, El. change (S.len l) with (zlen l). rewrite Zl, Z2Nat.id by lia. rewrite <- !app_assoc. reflexivity. }
  exists h, pay, ses, rest. rewrite Eh. rewrite Hd.
  split; [rewrite E1 at 1; rewrite <- !app_assoc; reflexivity|].
  split. { constructor; cbn [SD.h_alg SD.h_key SD.h_time SD.h_ttl SD.h_gas SD.h_bodyhash SD.h_deps SD.h_chain h]; auto; unfold SD.key_len; change (@S.len Z) with (@zlen Z); destruct Ka as [[-> Zk]|[-> Zk]]; auto. }
  split; [symmetry; exact Hb|]. split; [exact Pb|]. split; [symmetry; exact Cu|].
  destruct Sb as [Sb|U]; [|auto].
  assert (Bs : bytes ses). { rewrite E1 in B. apply bytes_app1 in B. destruct B as [_ B]. apply bytes_app1 in B. destruct B as [_ B]. apply bytes_app1 in B. destruct B as [B _]. apply bytes_app1 in B. apply B. }
  destruct (session_classes ses Bs Sb) as [S0|S0]; auto.
Qed.
