(** Reviews of the same deploy in expert mode and in normal mode. *)
From Verif Require Import Base Zxlib Crypto Utils RuntimeArg Deploy DeployUI TxV1 TxV1UI Parser BaseFacts Spec Exec ArgsFacts ReaderFacts RangeFacts BindFacts BindCases OklFacts ModeFacts Demo.
Import S.

(** [p] in expert mode and [q] in normal mode. *)
Definition down {A} (R : A -> A -> Prop) (p q : P A) : Prop := forall e o, expert e = true -> same R (p e o) (q (with_x e false) o).
Lemma down_bind {A B} (S : A -> A -> Prop) (R : B -> B -> Prop) (p q : P A) (f g : A -> P B) :
  down S p q -> (forall a b, S a b -> down R (f a) (g b)) -> down R (bind p f) (bind q g).
Proof.
  intros Hp Hf e o X. specialize (Hp e o X). unfold bind. destruct (p e o) as [[a|c|u] o1], (q (with_x e false) o) as [[b|d|w] o2];
    destruct Hp as [E Hp]; cbn [fst snd] in *; try contradiction; subst; try (split; reflexivity). apply Hf; auto.
Qed.
(** a first part that does not depend on the mode, with a postcondition *)
Lemma down_bind_x {A B} (Q : A -> Prop) (R : B -> B -> Prop) (p : P A) (f g : A -> P B) : xfree p ->
  (forall e o a o', p e o = (Ret a, o') -> Q a) ->
  (forall a, Q a -> down R (f a) (g a)) -> down R (bind p f) (bind p g).
Proof.
  intros Hp HQ Hf e o X. unfold bind. rewrite Hp. destruct (p e o) as [[a|c|u] o1] eqn:E; try (split; reflexivity).
  apply Hf; [|exact X]. eapply HQ, E.
Qed.
Lemma down_x {A B} (R : B -> B -> Prop) (p : P A) (f g : A -> P B) : xfree p -> (forall a, down R (f a) (g a)) -> down R (bind p f) (bind p g).
Proof. intros Hp Hf. apply (down_bind_x (fun _ => True)); auto. Qed.
Lemma down_ret {A} (R : A -> A -> Prop) a b : R a b -> down R (ret a) (ret b).
Proof. intros H e o X. exact (conj eq_refl H). Qed.
Ltac db := apply down_x; [solve [xf]|intros].

(** Screens of a contract call: [j] in expert mode, [i] in normal mode. *)
Definition call_pair (j i : ditem) : Prop :=
  alike j i /\ UI_runtime_items j = UI_runtime_items i /\ 0 <= UI_runtime_items i <= 4 /\
  exists f, UI_fixed_items i = u32 f /\ -1 <= f <= 2 /\ (f = -1 -> UI_runtime_items i = 2) /\
    (UI_fixed_items j = UI_fixed_items i /\ dtype i = ModuleBytes \/ 2 <= UI_fixed_items j <= 4).
(** Screens of a transfer. *)
Definition transfer_pair (j i : ditem) : Prop :=
  alike j i /\ UI_fixed_items j = 0 /\ UI_fixed_items i = 0 /\
  (dgeneric i = true /\ UI_runtime_items j = 1 /\ UI_runtime_items i = 1 \/
   dgeneric i = false /\ (UI_runtime_items j = 3 \/ UI_runtime_items j = 4) /\ UI_runtime_items i = 2).
Definition pair (j i : ditem) : Prop :=
  dspecial i = NativeTransfer /\ transfer_pair j i \/ dspecial i <> NativeTransfer /\ call_pair j i.

Definition screens (i : ditem) : Prop :=
  0 <= UI_runtime_items i <= 4 /\ exists f, UI_fixed_items i = u32 f /\ -1 <= f <= 2 /\ (f = -1 -> UI_runtime_items i = 2).

Definition kept (i j : ditem) : Prop := screens j /\ dtype j = dtype i /\ dspecial j = dspecial i.
Lemma checkdel_screens i n rd e o r o' : fresh_item i -> checkForDelegationItems i n rd e o = (Ret r, o') -> kept i r.
Proof.
  intros [F R] H. unfold checkForDelegationItems in H.
  pgo; repeat match goal with H : COUNT_RUNTIME_ARGTYPE _ _ _ _ _ _ = _ |- _ => apply COUNT_post in H end;
  repeat match goal with H : _ \/ _ |- _ => destruct H end; try discriminate;
  repeat match goal with H : inl _ = inl _ |- _ => injection H as H end; subst;
  (split; [|split; reflexivity]); unfold screens, add_runtime, set_generic, set_fixed; cbn [UI_fixed_items UI_runtime_items];
  rewrite ?F, ?R;
  match goal with
  | |- _ /\ exists f, u32 (?a - 1) = _ /\ _ => split; [cbn; lia|]; exists (a - 1); unfold u16, u32; cbn; lia
  | |- _ => split; [cbn; lia|]; exists 0; unfold u32; cbn; lia
  end.
Qed.

Lemma d_deleg_args i n rd ha : fresh_item i -> dspecial i <> NativeTransfer -> (ha = false -> dtype i = ModuleBytes) ->
  down pair (parseDelegation_args i n rd ha) (parseDelegation_args i n rd ha).
Proof.
  intros Fr NT M. unfold parseDelegation_args. db.
  apply (down_bind_x (fun r => match r with inl j => kept i j | inr _ => True end)); [solve [xf]| |].
  { intros e o r o' H. apply try_inv in H. destruct r; [|exact I]. eapply checkdel_screens; eauto. }
  intros tr KT. apply (down_bind_x (kept i)); [solve [xf]| |].
  { intros e o r o' H. destruct tr as [j|c]; [pinv; exact KT|]. destruct Fr as [F R].
    pgo. split; [|split; reflexivity]. unfold screens, add_runtime, set_generic, set_fixed; cbn [UI_fixed_items UI_runtime_items]; rewrite ?R.
    match goal with |- context [match ?a with inl _ => 2 | inr _ => 1 end] => destruct a end; (split; [cbn; lia|]); exists 2; cbn; lia. }
  intros j ((Rj & f & Ff & Hf & Hm) & Dj & Sj). cbv zeta.
  set (k := if dspecial j =? Generic then set_generic true j else j).
  assert (K : dtype k = dtype i /\ dspecial k = dspecial i /\ UI_runtime_items k = UI_runtime_items j /\ UI_fixed_items k = UI_fixed_items j).
  { unfold k. destruct (_ =? _); cbn; auto. }
  destruct K as (K1 & K2 & K3 & K4). clearbody k.
  intros e o X. unfold bind, ask. cbn [expert with_x]. rewrite X. cbn [andb]. split; [destruct ha; reflexivity|].
  assert (B : forall b c : bool, u32 (2 + (if b then 1 else 0) + (if c then 1 else 0)) = 2 + (if b then 1 else 0) + (if c then 1 else 0)) by (intros [|] [|]; reflexivity).
  destruct ha; cbn; right.
  - split; [congruence|]. split; [repeat split|]. cbn [UI_runtime_items set_fixed UI_fixed_items dtype]. split; [reflexivity|]. split; [lia|].
    exists f. split; [congruence|]. split; [lia|]. split; [rewrite K3; exact Hm|]. right.
    destruct (_ || _), (dgeneric k); cbn; lia.
  - split; [congruence|]. split; [apply alike_refl|]. split; [reflexivity|]. split; [lia|]. exists f. split; [congruence|]. split; [lia|].
    split; [rewrite K3; exact Hm|]. left. split; [reflexivity|]. rewrite K1. auto.
Qed.

Lemma d_deleg i n rd : fresh_item i -> dspecial i <> NativeTransfer -> down pair (parseDelegation i n rd) (parseDelegation i n rd).
Proof.
  intros F N. unfold parseDelegation. destruct (dtype i =? ModuleBytes) eqn:T; [|apply d_deleg_args; auto; discriminate].
  apply (down_bind_x (fun m => fresh_item (fst (fst m)) /\ dspecial (fst (fst m)) <> NativeTransfer /\ dtype (fst (fst m)) = dtype i)); [solve [xf]| |].
  - intros e o m o' H. unfold parseDelegation_module in H. pgo; cbn [fst]; (split; [exact F|]); (split; [|reflexivity]);
      cbn [dspecial set_special]; repeat destruct (list_eqb _ _); discriminate.
  - intros m (A & B & C). apply d_deleg_args; auto. intros _. rewrite C. lia.
Qed.

Lemma d_native i n : fresh_item i -> down transfer_pair (parseNativeTransfer i n) (parseNativeTransfer i n).
Proof.
  intros [F R]. unfold parseNativeTransfer. apply (down_bind_x (fun f => 0 <= f <= 4)); [solve [xf]|intros; eapply native_post; eauto|].
  intros f Hf. cbv zeta. destruct (_ && _) eqn:E.
  - intros e o X. split; [reflexivity|]. unfold bind, ask, ret. cbn [fst expert with_x]. rewrite X.
    split; [repeat split|]. cbn. rewrite F, R. repeat split; auto. right. split; [reflexivity|]. unfold u32 in *. split; [|reflexivity]. lia.
  - destruct (_ =? 0); [intros e o X; split; reflexivity|]. apply down_ret. split; [apply alike_refl|]. cbn. rewrite F, R. repeat split. left. repeat split.
Qed.

Definition pair1 (p q : ditem * Z) : Prop := pair (fst p) (fst q) /\ snd p = snd q.
Definition pair2 (p q : ditem * Z * Z) : Prop := pair1 (fst p) (fst q) /\ snd p = snd q.
Lemma d_entry i : fresh_item i -> down pair2 (check_entrypoint i) (check_entrypoint i).
Proof.
  intros F. unfold check_entrypoint. do 4 db. apply (down_bind pair).
  - apply d_deleg; [exact F|]. cbn. repeat destruct (name_is _ _); discriminate.
  - intros j k J. apply down_ret. repeat split; exact J.
Qed.
Lemma pair_total t i j : pair i j -> pair (set_total t i) (set_total t j).
Proof.
  intros [(A & (B1 & B2 & B3 & B4 & B5) & C)|(A & (B1 & B2 & B3 & B4 & B5) & C)]; [left|right]; (split; [exact A|]); (split; [|exact C]); repeat split; assumption.
Qed.
Lemma d_session t : down pair1 (parseDeployItem_session t) (parseDeployItem_session t).
Proof.
  assert (F : fresh_item (init_item t)) by (split; reflexivity).
  assert (N : dspecial (init_item t) <> NativeTransfer) by discriminate.
  assert (E : forall s i, fresh_item i -> down pair1 (r <- check_entrypoint i ;; parseRuntimeArgs (snd (fst r)) ;; t <- parseTotalLength s ;; ret (set_total t (fst (fst r)), snd r))
    (r <- check_entrypoint i ;; parseRuntimeArgs (snd (fst r)) ;; t <- parseTotalLength s ;; ret (set_total t (fst (fst r)), snd r))).
  { intros s i Fi. apply (down_bind pair2); [apply d_entry, Fi|]. intros [[a n] p] [[b m] q] [[Ia In] Ip]. cbn [fst snd] in *. subst.
    db. db. apply down_ret. split; [apply pair_total, Ia|reflexivity]. }
  unfold parseDeployItem_session. cbv zeta. destruct (t =? ModuleBytes); [|destruct (_ || _); [|destruct (_ || _); [|destruct (t =? Transfer)]]].
  - apply (down_bind pair); [|intros; apply down_ret; split; auto].
    unfold parseModuleBytes_session. do 3 db. apply (down_bind pair); [apply d_deleg; auto|]. intros i j J. do 2 db. apply down_ret, pair_total, J.
  - unfold parseStoredContractByHash. db. db. db. apply E, F.
  - unfold parseStoredContractByName. db. db. db. apply E, F.
  - apply (down_bind pair); [|intros; apply down_ret; split; auto].
    unfold parseTransfer. do 2 db. apply (down_bind transfer_pair); [apply d_native, F|]. intros i j J. do 2 db. apply down_ret, pair_total.
    left. split; [reflexivity|]. destruct J as ((B1 & B2 & B3 & B4 & B5) & C). split; [repeat split; assumption | exact C].
  - intros e o X. split; reflexivity.
Qed.
Definition pair_deploy (v w : deploy) : Prop :=
  dheader v = dheader w /\ payment v = payment w /\ pair (session v) (session w) /\ entry_point_offset v = entry_point_offset w.
Lemma d_deploy : down pair_deploy parser_read_deploy parser_read_deploy.
Proof.
  unfold parser_read_deploy. do 8 db. apply (down_bind pair1); [apply d_session|]. intros i j [J1 J2]. apply down_ret.
  split; [reflexivity|]. split; [reflexivity|]. split; assumption.
Qed.

(** In expert mode a recognised transfer shows all its arguments. *)
Lemma native_count t e p s ep o2 : wf e -> in16 p -> expert e = true -> parseDeployItem_session t e p = (Ret (s, ep), o2) -> dspecial s = NativeTransfer ->
  dgeneric s = false -> forall n o', readU32 e p = (Ret n, o') -> UI_runtime_items s = n.
Proof.
  intros W I X H Sp G n o' R. assert (F : fresh_item (init_item t)) by (split; reflexivity).
  assert (N : dspecial (init_item t) <> NativeTransfer) by discriminate.
  unfold parseDeployItem_session in H.
  destruct (t =? ModuleBytes); [|destruct (_ || _); [|destruct (_ || _); [|destruct (t =? Transfer); [|discriminate]]]].
  - exfalso. unfold parseModuleBytes_session in H. pgo.
    match goal with H : (s, ep) = _ |- _ => injection H as -> -> end.
    match goal with H : parseDelegation _ _ _ _ _ = _ |- _ => apply deleg_special in H; auto end.
  - exfalso. unfold parseStoredContractByHash, check_entrypoint in H. pgo;
    match goal with H : (s, ep) = _ |- _ => injection H as -> -> end;
    match goal with H : parseDelegation _ _ _ _ _ = _ |- _ => apply deleg_special in H; auto end;
    cbn; repeat destruct (name_is _ _); discriminate.
  - exfalso. unfold parseStoredContractByName, check_entrypoint in H. pgo;
    match goal with H : (s, ep) = _ |- _ => injection H as -> -> end;
    match goal with H : parseDelegation _ _ _ _ _ = _ |- _ => apply deleg_special in H; auto end;
    cbn; repeat destruct (name_is _ _); discriminate.
  - unfold parseTransfer in H. bx H i1 q1 T. apply ret_inv in H. destruct H as [E ->]. injection E as -> ->.
    unfold off32 in T. bx T st q2 O. pinv.
    match goal with H : readU32 _ _ = _ |- _ => rewrite R in H; injection H as <- <- end.
    match goal with H : parseNativeTransfer _ _ _ _ = _ |- _ => rename H into PN end.
    unfold parseNativeTransfer in PN. bx PN fd q3 C. apply native_post in C.
    apply readU32_inv in R; auto. destruct R as (R & _). destruct F as [_ F]. pgo; cbn in G |- *; try congruence. rewrite ?X, u32_small; lia.
Qed.

(** Where the review of normal mode is found in that of expert mode: an item
    about the session at [s] (after the 4 + 1 first items). *)
Definition session_place (j i : ditem) (s : Z) : Z :=
  if dspecial i =? NativeTransfer then (if dgeneric i then s else if UI_runtime_items j =? 4 then s + 1 else s)
  else if s <? UI_fixed_items i then s else s - UI_fixed_items i + UI_fixed_items j.
Definition place (v w : deploy) (idx : Z) : Z :=
  if idx <? 4 then idx else if idx <? 5 then idx + 4 else 9 + session_place (session v) (session w) (idx - 5).
Lemma count_bounds j i : pair j i ->
  exists n m, 0 <= n <= 6 /\ 0 <= m <= 8 /\ u16 (UI_fixed_items i + UI_runtime_items i) = n /\ u16 (UI_fixed_items j + UI_runtime_items j) = m /\
    u8 (UI_fixed_items i + UI_runtime_items i) = n /\ u8 (UI_fixed_items j + UI_runtime_items j) = m /\
    (forall s, 0 <= s < n -> 0 <= session_place j i s < m) /\
    (forall s t, 0 <= s < t -> t < n -> session_place j i s < session_place j i t).
Proof.
  intros [(S & A & F1 & F2 & C)|(S & A & R & B & f & F & Hf & Hm & C)]; unfold session_place.
  - rewrite F1, F2. rewrite S. cbn [Z.eqb]. destruct C as [(G & -> & ->)|(G & [-> | ->] & ->)]; rewrite G;
      do 2 eexists; (split; [|split; [|split; [reflexivity|split; [reflexivity|split; [reflexivity|split; [reflexivity|split]]]]]]); cbn; try lia.
  - replace (dspecial i =? NativeTransfer) with false by lia. rewrite R, F.
    assert (Q : f = -1 \/ f = 0 \/ f = 1 \/ f = 2) by lia. destruct Q as [->|Q].
    + rewrite (Hm eq_refl). change (u32 (-1)) with 4294967295.
      destruct C as [(-> & _)|C].
      * rewrite F. change (u32 (-1)) with 4294967295. exists 1, 1.
        split; [lia|]. split; [lia|]. do 4 (split; [reflexivity|]). split; intros; [|lia]. replace (s <? 4294967295) with true by lia. lia.
      * exists 1, (UI_fixed_items j + 2). split; [lia|]. split; [lia|]. split; [reflexivity|]. split; [unfold u16; lia|]. split; [reflexivity|].
        split; [unfold u8; lia|]. split; intros; [|lia]. replace (s <? 4294967295) with true by lia. lia.
    + assert (U : u32 f = f) by (rewrite u32_small; lia). rewrite U.
      assert (J : f <= UI_fixed_items j <= 4) by (destruct C as [(C & _)|C]; lia). clear C.
      exists (f + UI_runtime_items i), (UI_fixed_items j + UI_runtime_items i).
      split; [lia|]. split; [lia|]. split; [unfold u16; lia|]. split; [unfold u16; lia|]. split; [unfold u8; lia|]. split; [unfold u8; lia|].
      split; intros; repeat match goal with |- context [?a <? ?b] => destruct (Z.ltb_spec a b) end; lia.
Qed.

(** ** Display functions that do not depend on the mode *)
Lemma xf_lift {A} (r : outcome A) : xfree (lift r). Proof. intros e o x; reflexivity. Qed.
Lemma xf_time : xfree (ask timefmt). Proof. intros e o x; reflexivity. Qed.
#[export] Hint Resolve xf_lift xf_time : xf.
Lemma xf_pbytes o n : xfree (parser_printBytes o n). Proof. unfold parser_printBytes; cbv zeta; xf. Qed.
Lemma xf_paddr o n : xfree (parser_printAddress o n). Proof. unfold parser_printAddress; xf. Qed.
#[export] Hint Resolve xf_pbytes xf_paddr : xf.
Lemma xf_hashitem n nm : xfree (showRuntimeArgsHash n nm). Proof. unfold showRuntimeArgsHash; xf. Qed.
#[export] Hint Resolve xf_hashitem : xf.
Lemma xf_args_hash s n nm : xfree (args_hash s n nm). Proof. unfold args_hash; xf. Qed.
Lemma xf_pre n : xfree (display_pre n). Proof. unfold display_pre; xf. Qed.
Lemma xf_big n : xfree (amount_bignum n). Proof. unfold amount_bignum; xf. Qed.
Lemma xf_int n : xfree (amount_int n). Proof. unfold amount_int; xf. Qed.
#[export] Hint Resolve xf_args_hash xf_pre xf_big xf_int : xf.
Lemma xf_dmotes t n : xfree (display_runtimeArgMotes t n). Proof. unfold display_runtimeArgMotes; xf. Qed.
Lemma xf_darg t n : xfree (display_runtimeArg t n). Proof. unfold display_runtimeArg; xf. Qed.
#[export] Hint Resolve xf_dmotes xf_darg : xf.
Lemma xf_show_arg k a n : xfree (show_arg k a n). Proof. unfold show_arg; xf. Qed.
Lemma xf_show_motes k a n : xfree (show_motes k a n). Proof. unfold show_motes; xf. Qed.
#[export] Hint Resolve xf_show_arg xf_show_motes : xf.
Lemma xf_paymentitem i idx : xfree (getItem_SystemPayment i idx). Proof. unfold getItem_SystemPayment; cbv zeta; xf. Qed.
Lemma xf_chash : xfree render_contract_hash. Proof. unfold render_contract_hash; xf. Qed.
Lemma xf_addr : xfree render_address. Proof. unfold render_address; xf. Qed.
Lemma xf_name : xfree render_name. Proof. unfold render_name; xf. Qed.
Lemma xf_index h p : xfree (index_headerpart_deploy h p). Proof. unfold index_headerpart_deploy; xf. Qed.
Lemma xf_dstring k o n : xfree (DISPLAY_STRING k o n). Proof. unfold DISPLAY_STRING; xf. Qed.
#[export] Hint Resolve xf_paymentitem xf_chash xf_addr xf_name xf_index xf_dstring : xf.

Lemma run_set {B} n (k : unit -> P B) e o : bind (set_off n) k e o = k tt e (u16 n).
Proof. reflexivity. Qed.
Lemma run_advance {B} n (k : unit -> P B) e o : bind (advance n) k e o = k tt e (u16 (o + n)).
Proof. reflexivity. Qed.

(** ** One item of the session *)
Lemma deleg_down j i ep s e o : call_pair j i -> dspecial i <> NativeTransfer -> expert e = true ->
  0 <= s < u16 (UI_fixed_items i + UI_runtime_items i) ->
  (dtype i = ModuleBytes -> exists o', parse_item e (u16 (o + 1)) = (Ret tt, o')) ->
  fst (getItem_Delegation i ep s (with_x e false) o) = Ret question \/
  fst (getItem_Delegation i ep s (with_x e false) o) = fst (getItem_Delegation j ep (session_place j i s) e o).
Proof.
  intros ((A1 & A2 & A3 & A4 & A5) & R & B & f & F & Hf & Hm & C) NT X Hs PI.
  unfold getItem_Delegation, session_place. replace (dspecial i =? NativeTransfer) with false by lia.
  rewrite !run_advance.
  destruct (s <? UI_fixed_items i) eqn:S.
  - assert (S1 : s <= 1).
    { assert (Q : f = -1 \/ f = 0 \/ f = 1 \/ f = 2) by lia. destruct Q as [->|Q].
      - rewrite F, (Hm eq_refl) in Hs. change (u16 (u32 (-1) + 2)) with 1 in Hs. lia.
      - rewrite F, u32_small in S by lia. lia. }
    replace (s <? UI_fixed_items j) with true by (destruct C as [(C & _)|C]; lia).
    assert (H3 : (UI_fixed_items i =? 3) = false) by (rewrite F; unfold u32; assert (Q : f = -1 \/ f = 0 \/ f = 1 \/ f = 2) by lia; destruct Q as [->|[->|[->| ->]]]; reflexivity).
    unfold render_fixed_delegation_items. rewrite A1, A2, H3. cbn [negb]. rewrite !step_ask. cbn [expert with_x orb]. rewrite X. cbn [orb].
    destruct (dtype i =? ModuleBytes) eqn:DM.
    + destruct (dspecial i =? Generic).
      * right. rewrite !andb_true_r. destruct (s =? 0) eqn:S0; [reflexivity|]. replace (s =? 1) with true by lia. rewrite xf_chash. reflexivity.
      * left. rewrite !andb_false_r. destruct PI as (o' & PI); [lia|].
        unfold bind. rewrite xf_item, PI. reflexivity.
    + right. rewrite !andb_true_r. repeat match goal with |- context [if dtype i =? ?k then _ else _] => destruct (dtype i =? k) end; try reflexivity;
      (destruct (s =? 0) eqn:S0; [reflexivity|]; replace (s =? 1) with true by lia);
      first [rewrite xf_addr | rewrite xf_name]; reflexivity.
  - right. assert (SJ : (s - UI_fixed_items i + UI_fixed_items j <? UI_fixed_items j) = false) by lia. rewrite SJ.
    replace (s - UI_fixed_items i + UI_fixed_items j - UI_fixed_items j) with (s - UI_fixed_items i) by lia.
    replace (UI_fixed_items j <=? s - UI_fixed_items i + UI_fixed_items j) with true by lia.
    replace (UI_fixed_items i <=? s) with true by lia. rewrite A1, A2, A3, A5, R. cbv zeta.
    match goal with |- fst (?p _ _) = _ => assert (K : xfree p) by xf; rewrite K; reflexivity end.
Qed.
Lemma fst_down {A B} (p : P A) (f g : A -> P B) e o : xfree p ->
  (forall a o', p e o = (Ret a, o') -> fst (f a (with_x e false) o') = fst (g a e o')) -> fst (bind p f (with_x e false) o) = fst (bind p g e o).
Proof. intros Hp H. unfold bind. rewrite Hp. destruct (p e o) as [[a|c|u] o'] eqn:E; try reflexivity. apply H. reflexivity. Qed.
Lemma native_down j i s e o : transfer_pair j i -> dspecial i = NativeTransfer -> expert e = true ->
  0 <= s < u16 (UI_fixed_items i + UI_runtime_items i) ->
  (forall n o', readU32 e (u16 (o + 1)) = (Ret n, o') -> dgeneric j = false -> UI_runtime_items j = n) ->
  fst (getItem_NativeTransfer i s (with_x e false) o) = fst (getItem_NativeTransfer j (session_place j i s) e o).
Proof.
  intros ((A1 & A2 & A3 & A4 & A5) & F1 & F2 & C) NT X Hs HN.
  unfold getItem_NativeTransfer, session_place. rewrite NT, F1, F2. cbn [Z.eqb NativeTransfer Pos.eqb]. change (NativeTransfer =? NativeTransfer) with true. cbv iota.
  rewrite !run_advance, !step_get_off, !Z.sub_0_r. rewrite F2 in Hs. apply fst_down; [apply xf_u32|]. intros n o1 RU.
  destruct C as [(G & Rj & Ri)|(G & Rj & Ri)]; rewrite G, ?A3, ?G; rewrite Ri in *; cbv beta iota zeta.
  - rewrite Rj. change (u16 (0 + 1)) with 1 in Hs. assert (s = 0) as -> by lia.
    match goal with |- fst (?p _ _) = _ => assert (K : xfree p) by xf; rewrite K; reflexivity end.
  - assert (N : UI_runtime_items j = n) by (eapply HN; [exact RU|congruence]). rewrite N in *. change (u16 (0 + 2)) with 2 in Hs.
    assert (D : s = 0 \/ s = 1) by lia.
    destruct Rj as [-> | ->]; destruct D as [-> | ->];
      repeat rewrite step_check by reflexivity; cbn [Z.eqb Pos.eqb orb negb]; rewrite !step_ask; cbn [expert with_x]; rewrite X; cbn -[show_arg show_motes with_x];
      first [rewrite xf_show_arg | rewrite xf_show_motes]; reflexivity.
Qed.

Lemma counts_down v w : payment v = payment w -> UI_fixed_items (payment w) = 0 -> UI_runtime_items (payment w) = 1 -> pair (session v) (session w) ->
  exists n m, 0 <= n <= 6 /\ 0 <= m <= 8 /\ u16 (UI_fixed_items (session w) + UI_runtime_items (session w)) = n /\
    u16 (UI_fixed_items (session v) + UI_runtime_items (session v)) = m /\
    getNumItemsDeploy false w = 5 + n /\ getNumItemsDeploy true v = 10 + m /\
    (forall s, 0 <= s < n -> 0 <= session_place (session v) (session w) s < m) /\
    (forall s t, 0 <= s < t -> t < n -> session_place (session v) (session w) s < session_place (session v) (session w) t).
Proof.
  intros EP F R P. destruct (count_bounds _ _ P) as (n & m & Hn & Hm & N1 & M1 & N2 & M2 & PL & MO).
  exists n, m. repeat (split; [assumption|]). unfold getNumItemsDeploy. rewrite EP, F, R. unfold u8 in *. split; [lia|]. split; [lia|]. auto.
Qed.

Lemma item_down v w e idx o : pair_deploy v w -> expert e = true ->
  UI_fixed_items (payment w) = 0 -> UI_runtime_items (payment w) = 1 ->
  let o1 := u16 (u16 (header_length_deploy (dheader w) + 32) + totalLength (payment w)) in
  (dtype (session w) = ModuleBytes -> exists o', parse_item e (u16 (o1 + 1)) = (Ret tt, o')) ->
  (dspecial (session w) = NativeTransfer -> dgeneric (session w) = false -> forall n o', readU32 e (u16 (o1 + 1)) = (Ret n, o') -> UI_runtime_items (session v) = n) ->
  0 <= idx < getNumItemsDeploy false w ->
  fst (getItemDeploy w idx (with_x e false) o) = Ret question \/
  fst (getItemDeploy w idx (with_x e false) o) = fst (getItemDeploy v (place v w idx) e o).
Proof.
  intros (E1 & E2 & P & E4) X F R o1 PI PN Hi.
  destruct (counts_down v w E2 F R P) as (n & m & Hn & Hm & N1 & M1 & N2 & M2 & PL & MO).
  assert (T : deploy_type_text v = deploy_type_text w).
  { assert (A : alike (session v) (session w)) by (destruct P as [(_ & A & _)|(_ & A & _)]; exact A).
    destruct A as (A1 & A2 & A3 & _). unfold deploy_type_text. cbv zeta. rewrite E2, A1, A2, A3. reflexivity. }
  unfold getItemDeploy. rewrite !step_ask. cbn [expert with_x]. rewrite X, N2, M2, E1, E2. cbv zeta.
  assert (PB : 0 <= place v w idx < 10 + m /\ (5 <= idx -> place v w idx = 9 + session_place (session v) (session w) (idx - 5)) /\ (idx = 4 -> place v w idx = 8) /\ (idx < 4 -> place v w idx = idx)).
  { unfold place. repeat match goal with |- context [?a <? ?b] => destruct (Z.ltb_spec a b) end; try lia. specialize (PL (idx - 5) ltac:(lia)). lia. }
  destruct PB as (PB & P5 & P4 & P3).
  rewrite !step_check by lia.
  destruct (Z_lt_dec idx 4) as [L|L].
  { right. rewrite (P3 L). assert (D : idx = 0 \/ idx = 1 \/ idx = 2 \/ idx = 3) by lia.
    destruct D as [->|[->|[->| ->]]]; cbn [Z.eqb Pos.eqb]; try (rewrite T; reflexivity);
    match goal with |- fst (?p _ _) = _ => assert (K : xfree p) by xf; rewrite K; reflexivity end. }
  replace (idx =? 0) with false by lia. replace (idx =? 1) with false by lia. replace (idx =? 2) with false by lia. replace (idx =? 3) with false by lia. cbn [andb].
  assert (PG : 8 <= place v w idx) by (destruct (Z.eq_dec idx 4); [lia|]; specialize (PL (idx - 5) ltac:(lia)); lia).
  generalize dependent (place v w idx). intros p PB P5 P4 _ PG.
  replace (p =? 0) with false by lia. replace (p =? 1) with false by lia. replace (p =? 2) with false by lia. replace (p =? 3) with false by lia.
  replace (p =? 4) with false by lia. replace (p =? 5) with false by lia. replace (p =? 6) with false by lia. replace (p =? 7) with false by lia.
  rewrite !(u8_small (p - 8)), !(u8_small (idx - 4)) by lia.
  rewrite !run_set, F, R. change (u16 (0 + 1)) with 1.
  destruct (Z.eq_dec idx 4) as [->|I5].
  { right. rewrite (P4 eq_refl). change (4 - 4) with 0. change (8 - 8) with 0. change (0 <? 1) with true. cbv iota.
    destruct (_ =? SystemPayment); [rewrite xf_paymentitem|]; reflexivity. }
  specialize (PL (idx - 5) ltac:(lia)). specialize (P5 ltac:(lia)).
  replace (idx - 4 <? 1) with false by lia. replace (p - 8 <? 1) with false by lia. rewrite !run_advance.
  assert (S : p - 8 - 1 = session_place (session v) (session w) (idx - 5)) by lia.
  replace (idx - 4 - 1) with (idx - 5) by lia. rewrite S, N1, M1.
  rewrite !u8_small by lia.
  replace (idx - 5 <? n) with true by lia. replace (session_place (session v) (session w) (idx - 5) <? m) with true by lia.
  fold o1.
  destruct P as [(SN & P)|(SN & P)].
  - right. rewrite SN. replace (dspecial (session v)) with NativeTransfer by (destruct P as ((_ & A & _) & _); congruence).
    cbn [Z.eqb NativeTransfer]. change (NativeTransfer =? NativeTransfer) with true. cbv iota. apply native_down; auto; [lia|].
    intros k o' RU G. eapply PN; eauto. destruct P as ((_ & _ & A & _) & _). congruence.
  - replace (dspecial (session v)) with (dspecial (session w)) by (destruct P as ((_ & A & _) & _); congruence).
    replace (dspecial (session w) =? NativeTransfer) with false by lia. rewrite E4.
    destruct (_ || _); [|right; reflexivity]. apply deleg_down; auto. lia.
Qed.

(** The tag of a module is followed by its code. *)
Lemma module_item e p s o2 : parseDeployItem_session ModuleBytes e p = (Ret s, o2) -> exists o', parse_item e p = (Ret tt, o').
Proof.
  intros H. unfold parseDeployItem_session in H. change (ModuleBytes =? ModuleBytes) with true in H. cbv iota in H.
  unfold parseModuleBytes_session, off32 in H. pinv. repeat match goal with u : unit |- _ => destruct u end. eauto.
Qed.

Lemma items_all t e : forall n i o, (forall k o, i <= k < i + Z.of_nat n -> exists it, fst (getItem t k e o) = Ret it) ->
  exists its, fst (items_from t i n e o) = Ret its.
Proof.
  induction n as [|n IH]; intros i o H; cbn [items_from]; [exists []; reflexivity|].
  destruct (H i o) as (it & G); [lia|]. unfold bind. destruct (getItem t i e o) as [[a|c|u] o'] eqn:E; cbn [fst] in G; try discriminate G.
  destruct (IH (i + 1) o') as (its & J); [intros; apply H; lia|].
  destruct (items_from t (i + 1) n e o') as [[b|c|u] o'']; cbn [fst] in J; try discriminate J. exists (a :: b). reflexivity.
Qed.

(** ** Every accepted deploy *)
Lemma expert_covers pf data v : hash32 (p_hash pf) -> bytes data -> zlen data < 65535 ->
  tx_parse pf true (0 :: data) = Ret (TDeploy v) ->
  exists w, tx_parse pf false (0 :: data) = Ret (TDeploy w) /\
    (forall i j, 0 <= i < j -> j < getNumItems false (TDeploy w) -> place v w i < place v w j) /\
    forall i, 0 <= i < getNumItems false (TDeploy w) -> 0 <= place v w i < getNumItems true (TDeploy v) /\
      forall kl, tx_getItem pf false kl (0 :: data) (TDeploy w) i = Ret question \/
        tx_getItem pf false kl (0 :: data) (TDeploy w) i = tx_getItem pf true kl (0 :: data) (TDeploy v) (place v w i).
Proof.
  intros Hh B L H.
  destruct (accepted_deploy _ _ _ _ Hh B L H) as (W & o1 & o2 & t & o3 & its & o4 & hdr & dh & body & bh & RD & RP & At & Tr & RS & Dt & Ct
     & It & L1 & L2 & L3 & T1 & T2 & PK & A0 & S1 & S2 & H1 & S3 & S4 & H2).
  destruct (shown_all pf true 40 data v Hh B L H) as [NI K].
  pose proof (fun kl idx => tx_item pf true kl data v idx Hh B L H) as TI.
  pose proof (accept_inv pf true 0 data (TDeploy v) L H) as (Hn & q1 & q2 & jts & q3 & u & C & V & _).
  set (e := ctx_of pf true false 40 data (zlen data)) in *.
  pose proof (d_deploy e 0 eq_refl) as D. rewrite RD in D. cbn [same fst snd] in D.
  destruct (parser_read_deploy (with_x e false) 0) as [[w|c|uu] q] eqn:RW; destruct D as [Eq D]; cbn [fst snd] in *; try contradiction. subst q.
  exists w. pose proof (header_len_range (dheader v)) as HL.
  destruct D as (D1 & D2 & D3 & D4).
  assert (Ip : in16 (header_length_deploy (dheader v) + 32)) by (unfold in16; lia).
  destruct (payment_fixed _ _ _ _ W Ip RP) as (PF & PR & PS & PG). rewrite D2 in PF, PR, PS, PG.
  assert (A : alike (session v) (session w)) by (destruct D3 as [(_ & A & _)|(_ & A & _)]; exact A).
  pose proof A as (A1 & A2 & A3 & A4 & A5).
  assert (IT : forall idx o, 0 <= idx < getNumItemsDeploy false w ->
    fst (getItemDeploy w idx (with_x e false) o) = Ret question \/ fst (getItemDeploy w idx (with_x e false) o) = fst (getItemDeploy v (place v w idx) e o)).
  { intros idx o Hi. apply item_down; auto; try (repeat split; assumption).
    - intros M. rewrite <- D1, <- D2, T1, (u16_small (_ + 32)), (u16_small (_ + (_ - _))), u16_small by lia. replace (header_length_deploy (dheader v) + 32 + (o1 - (header_length_deploy (dheader v) + 32)) + 1) with (o1 + 1) by lia.
      rewrite <- Dt, A1, M in RS. apply module_item in RS. exact RS.
    - intros SN G n o' RU. rewrite <- D1, <- D2, T1, (u16_small (_ + 32)), (u16_small (_ + (_ - _))), u16_small in RU by lia.
      replace (header_length_deploy (dheader v) + 32 + (o1 - (header_length_deploy (dheader v) + 32)) + 1) with (o1 + 1) in RU by lia.
      eapply native_count; [exact W | |reflexivity|exact RS|congruence|congruence|exact RU]. unfold in16; lia. }
  destruct (counts_down v w D2 PF PR D3) as (n & m & Hn' & Hm & N1 & M1 & N2 & M2 & PL & MO).
  assert (PB : forall i, 0 <= i < 5 + n -> 0 <= place v w i < 10 + m).
  { intros i Hi. unfold place. repeat match goal with |- context [?a <? ?b] => destruct (Z.ltb_spec a b) end; try lia. specialize (PL (i - 5) ltac:(lia)). lia. }
  assert (ACC : tx_parse pf false (0 :: data) = Ret (TDeploy w)).
  { unfold tx_parse. rewrite zlen_cons, u16_small by lia. replace (1 + zlen data - 1) with (zlen data) by lia.
    replace (1 + zlen data =? 0) with false by lia. replace (1 + zlen data =? 1) with false by lia.
    change (ctx_of pf false false 40 data (zlen data)) with (with_x e false).
    assert (VW : validateTxDeploy w (with_x e false) q1 = (Ret u, q2)).
    { cbn [getNumItems] in *. rewrite <- V. unfold validateTxDeploy. rewrite D1, D2, A4. cbv zeta.
      match goal with |- ?p _ _ = _ => assert (X : xfree p) by xf; apply X end. }
    apply content_deploy in C. destruct C as [_ C]. rewrite RD in C. injection C as <-.
    unfold parse_content. change (0 =? content_Deploy) with true. cbv iota.
    assert (PC : (v0 <- parser_read_deploy ;; ret (TDeploy v0)) (with_x e false) 0 = (Ret (TDeploy w), o2)) by (rewrite (bind_Ret _ _ _ _ _ _ RW); reflexivity).
    rewrite (bind_Ret _ _ _ _ _ _ PC).
    destruct (items_all (TDeploy w) (with_x e false) (Z.to_nat (getNumItemsDeploy false w)) 0 q2) as (wts & IW).
    { intros k o Hk. rewrite Z2Nat.id in Hk by lia. cbn [getItem]. destruct (IT k o ltac:(lia)) as [->| ->]; [eauto|].
      destruct (K (place v w k)) as [(it & KI) _]; [cbn [getNumItems]; rewrite M2; apply PB; lia|]. exists it. rewrite <- KI, TI. apply item_any_off. }
    assert (PV : fst (parser_validate (TDeploy w) (with_x e false) o2) = Ret wts).
    { unfold parser_validate. rewrite (bind_Ret _ _ _ _ _ _ VW), step_ask. exact IW. }
    destruct (parser_validate (TDeploy w) (with_x e false) o2) as [r ow] eqn:PE. cbn [fst] in PV. subst r.
    rewrite (bind_Ret _ _ _ _ _ _ PE). reflexivity. }
  split; [exact ACC|]. cbn [getNumItems] in *. rewrite N2, M2 in *. split.
  { intros i j Hij Hj. unfold place. repeat match goal with |- context [?a <? ?b] => destruct (Z.ltb_spec a b) end; try lia.
    - specialize (PL (j - 5) ltac:(lia)). lia.
    - specialize (PL (j - 5) ltac:(lia)). lia.
    - specialize (MO (i - 5) (j - 5) ltac:(lia) ltac:(lia)). lia. }
  intros i Hi. split; [apply PB, Hi|]. intros kl. rewrite TI, (tx_item pf false kl data w i Hh B L ACC).
  change (ctx_of pf false false 40 data (zlen data)) with (with_x e false). apply IT. exact Hi.
Qed.
Lemma expert_covers_any pf data v : hash32 (p_hash pf) -> bytes data -> zlen data < 65535 ->
  tx_parse pf true (0 :: data) = Ret (TDeploy v) ->
  exists w (place : Z -> Z), tx_parse pf false (0 :: data) = Ret (TDeploy w) /\
    (forall i j, 0 <= i < j -> j < getNumItems false (TDeploy w) -> place i < place j) /\
    forall i, 0 <= i < getNumItems false (TDeploy w) -> 0 <= place i < getNumItems true (TDeploy v) /\
      forall kl, tx_getItem pf false kl (0 :: data) (TDeploy w) i = Ret question \/
        tx_getItem pf false kl (0 :: data) (TDeploy w) i = tx_getItem pf true kl (0 :: data) (TDeploy v) (place i).
Proof. intros Hh B L H. destruct (expert_covers pf data v Hh B L H) as (w & A). exists w, (place v w). exact A. Qed.
