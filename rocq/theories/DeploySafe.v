(** Where the parsing and the review of a deploy can leave the buffer. *)
From Verif Require Import Base Zxlib Crypto Utils RuntimeArg Deploy DeployUI TxV1 TxV1UI Parser BaseFacts Spec SpecText SpecDeploy SpecTx SpecLayout Exec ArgsFacts ReaderFacts TextFacts RangeFacts BindFacts OklFacts BindCases SafeFacts TxInv Demo AppSign TxAccept.
Import S SX SL.

(** * The cursor stays inside the buffer *)
Definition inb {A} (e : env) (p : P A) : Prop := forall o, 0 <= o <= blen e -> 0 <= snd (p e o) <= blen e.

Section InB.
Variable e : env.
Hypothesis W : wf e.
Lemma ib_ret {A} (a : A) : inb e (ret a). Proof. intros o H; exact H. Qed.
Lemma ib_fail {A} x : inb e (@fail A x). Proof. intros o H; exact H. Qed.
Lemma ib_undef {A} x : inb e (@undef A x). Proof. intros o H; exact H. Qed.
Lemma ib_ask {A} (f : env -> A) : inb e (ask f). Proof. intros o H; exact H. Qed.
Lemma ib_check b x : inb e (check b x). Proof. intros o H; unfold check; destruct b; exact H. Qed.
Lemma ib_bind {A B} (p : P A) (f : A -> P B) : inb e p -> (forall a, inb e (f a)) -> inb e (bind p f).
Proof.
  intros Hp Hf o H. specialize (Hp o H). unfold bind. destruct (p e o) as [[a|x|u] o']; cbn [snd] in *; auto. apply Hf, Hp.
Qed.
Lemma ib_off {B} (f : Z -> P B) : (forall s, 0 <= s <= blen e -> inb e (f s)) -> inb e (bind get_off f).
Proof. intros Hf o H. apply (Hf o H o H). Qed.
Lemma ib_try {A} (p : P A) : inb e p -> inb e (try p).
Proof. intros Hp o H. specialize (Hp o H). unfold try. destruct (p e o) as [[a|x|u] o']; exact Hp. Qed.
Lemma ib_set s : 0 <= s <= blen e -> inb e (set_off s).
Proof. intros Hs o H. cbn. pose proof (wf_max e W). rewrite u16_small by lia. exact Hs. Qed.
Lemma ib_loop {S R} n (body : S -> P (flow S R)) s : (forall s, inb e (body s)) -> inb e (loop n body s).
Proof.
  intros Hb o H. rewrite loop_iter. generalize (Z.to_nat n). intros k. revert s o H.
  induction k as [|k IH]; intros s o H; cbn [iter_loop]; [exact H|].
  specialize (Hb s o H). unfold bind. destruct (body s e o) as [[[s'|r]|x|u] o']; cbn [snd] in *; auto.
Qed.
Lemma ib_read_le k : inb e (read_le k).
Proof.
  induction k as [|k IH]; [apply ib_ret|]. intros o H. cbn [read_le].
  cbv beta iota zeta delta [bind get_off ask check mem_at ret fail advance set_off].
  pose proof (wf_max e W). destruct (o <? blen e) eqn:L; [|exact H]. destruct (rd (mem e) o) as [b|]; [|exact H].
  rewrite u16_small by lia. specialize (IH (o + 1) ltac:(lia)). destruct (read_le k e (o + 1)) as [[a|x|u] o']; exact IH.
Qed.
End InB.
#[export] Hint Resolve ib_ret ib_fail ib_undef ib_ask ib_check ib_read_le : ib.
Ltac ib :=
  match goal with
  | |- inb _ (bind get_off _) => apply ib_off; [intros; ib]
  | |- inb _ (bind _ _) => apply ib_bind; [ib | intros; ib]
  | |- inb _ (try _) => apply ib_try; ib
  | |- inb _ (loop _ _ _) => apply ib_loop; intros; ib
  | |- inb _ (set_off _) => solve [apply ib_set; assumption]
  | |- inb _ (let '_ := ?x in _) => destruct x; ib
  | |- inb _ (if ?x then _ else _) => destruct x; ib
  | |- inb _ (match ?x with _ => _ end) => destruct x; ib
  | _ => solve [eauto with ib]
  end.

Lemma ib_readU8 e : wf e -> inb e readU8. Proof. intros W. apply ib_read_le, W. Qed.
Lemma ib_readU32 e : wf e -> inb e readU32. Proof. intros W. apply ib_read_le, W. Qed.
#[export] Hint Resolve ib_readU8 ib_readU32 : ib.
Lemma ib_word {B} e (f : Z -> P B) : wf e ->
  (forall v o, 0 <= v < 4294967296 -> 0 <= o <= blen e -> 0 <= snd (f v e o) <= blen e) -> inb e (bind readU32 f).
Proof.
  intros W Hf o H. pose proof (ib_readU32 e W o H) as I. pose proof (wf_max e W). unfold bind.
  destruct (readU32 e o) as [[p|x|u] o'] eqn:R; cbn [snd] in *; auto.
  apply readU32_inv in R; [|auto|unfold in16; lia]. destruct R as (V & _ & _ & _). apply Hf; assumption.
Qed.
Lemma u16_u32 x : u16 x = u16 (u32 x).
Proof. unfold u16, u32. change 4294967296 with (65536 * 65536). rewrite Z.rem_mul_r by lia. rewrite Z.mul_comm, Z.mod_add, Z.mod_mod; lia. Qed.
Lemma ib_parse_item e : wf e -> inb e parse_item.
Proof.
  intros W. apply ib_word; [exact W|]. intros p o V H. pose proof (wf_max e W).
  rewrite step_get_off, step_ask. unfold bind, check. destruct (u32 (o + p) <=? blen e) eqn:L; [|exact H].
  cbn. rewrite u16_u32. assert (0 <= u32 (o + p)) by (unfold u32; lia). rewrite u16_small; lia.
Qed.
Lemma ib_copy e cap : wf e -> inb e (copy_item_into_charbuffer cap).
Proof.
  intros W. apply ib_word; [exact W|]. intros p o V H. pose proof (wf_max e W).
  rewrite step_get_off, step_ask. unfold bind, check. destruct (_ && _) eqn:L; [|exact H].
  cbn. unfold mem_slice. destruct (slice _ _ _); cbn; [|exact H]. rewrite u16_small; lia.
Qed.
#[export] Hint Resolve ib_parse_item ib_copy : ib.
Lemma ib_pat e f : wf e -> forall t it, inb e (parse_additional_typebytes f t it).
Proof.
  intros W. induction f as [|f IH]; intros t it; cbn [parse_additional_typebytes]; unfold por; ib.
Qed.
#[export] Hint Resolve ib_pat : ib.
Lemma ib_get_type e it : wf e -> inb e (get_type it).
Proof. intros W. unfold get_type, check_runtime_type. ib. Qed.
#[export] Hint Resolve ib_get_type : ib.
Lemma ib_skip e : wf e -> inb e skip_arg. Proof. intros W. unfold skip_arg; ib. Qed.
#[export] Hint Resolve ib_skip : ib.
Lemma ib_args e n : wf e -> inb e (parseRuntimeArgs n). Proof. intros W. unfold parseRuntimeArgs; ib. Qed.
Lemma ib_search e a n : wf e -> inb e (searchRuntimeArgs a n). Proof. intros W. unfold searchRuntimeArgs, search_body; ib. Qed.
Lemma ib_getData e a n : wf e -> inb e (getData a n).
Proof.
  intros W. unfold getData. apply ib_bind; [|intros [?|?]; ib]. apply ib_loop. intros s.
  unfold getData_body. apply ib_bind; [ib|]. intros name. destruct (name_is name a); [|ib].
  apply ib_word; [exact W|]. intros p o V H. pose proof (wf_max e W).
  rewrite step_get_off, step_ask. destruct (p <=? blen e - o) eqn:L; [|exact H].
  unfold check. rewrite step_ret, step_advance by lia. assert (H1 : 0 <= o + p <= blen e) by lia. revert H1.
  match goal with |- _ -> 0 <= snd (?q _ _) <= _ => enough (I : inb e q) by (intros; apply I; lia) end. 
  apply ib_bind; [ib|]. intros t. apply ib_bind; [|ib]. apply ib_set; [exact W|]. lia.
Qed.
Lemma ib_off32 e : inb e off32. Proof. intros o H; exact H. Qed.
#[export] Hint Resolve ib_args ib_search ib_getData ib_off32 : ib.
Lemma ib_total e s : inb e (parseTotalLength s). Proof. unfold parseTotalLength; ib. Qed.
#[export] Hint Resolve ib_total : ib.
Lemma ib_CHECK e n a c : wf e -> inb e (CHECK_RUNTIME_ARGTYPE n a c). Proof. intros W. unfold CHECK_RUNTIME_ARGTYPE; ib. Qed.
Lemma ib_COUNT e n a c f : wf e -> inb e (COUNT_RUNTIME_ARGTYPE n a c f). Proof. intros W. unfold COUNT_RUNTIME_ARGTYPE; ib. Qed.
#[export] Hint Resolve ib_CHECK ib_COUNT : ib.
Lemma ib_native e i n : wf e -> inb e (parseNativeTransfer i n).
Proof. intros W. unfold parseNativeTransfer, checkNativeTransferArgs; ib. Qed.
Lemma ib_syspay e i n : wf e -> inb e (parseSystemPayment i n).
Proof. intros W. unfold parseSystemPayment, checkForSystemPaymentArgs; ib. Qed.
Lemma ib_deleg_args e i n r h : wf e -> inb e (parseDelegation_args i n r h).
Proof. intros W. unfold parseDelegation_args, checkForDelegationItems; ib. Qed.
#[export] Hint Resolve ib_native ib_syspay ib_deleg_args : ib.
Lemma ib_slice e o n : inb e (mem_slice o n).
Proof. intros p H. unfold mem_slice. destruct (slice _ _ _); exact H. Qed.
Lemma ib_require e b x : inb e (require b x). Proof. intros o H; unfold require; destruct b; exact H. Qed.
#[export] Hint Resolve ib_slice ib_require : ib.
Lemma ib_deleg e i n r : wf e -> inb e (parseDelegation i n r).
Proof. intros W. unfold parseDelegation, parseDelegation_module; ib. Qed.
#[export] Hint Resolve ib_deleg : ib.
Lemma ib_version e : wf e -> inb e parse_version. Proof. intros W. unfold parse_version; ib. Qed.
#[export] Hint Resolve ib_version : ib.
Lemma ib_payment e : wf e -> inb e read_payment.
Proof. intros W. unfold read_payment, parseDeployType, parseModuleBytes_payment; ib. Qed.

Lemma ib_ret_inv {A} e (p : P A) o a o' : inb e p -> 0 <= o <= blen e -> p e o = (Ret a, o') -> 0 <= o' <= blen e.
Proof. intros I H E. specialize (I o H). rewrite E in I. exact I. Qed.

Lemma entry_lands e i o r o' : wf e -> in16 o -> check_entrypoint i e o = (Ret r, o') -> 0 <= o' <= blen e.
Proof.
  intros W I H. unfold check_entrypoint in H. bx H ep o1 G. apply get_off_inv in G. destruct G as [-> ->].
  bx H nm o2 C. apply copy_item_inv in C; auto. destruct C as (At & _ & ->).
  apply at_bound in At; auto. pose proof (zlen_nonneg (lv nm)).
  assert (I2 : 0 <= o + zlen (lv nm) <= blen e) by lia. set (o2 := o + _) in *.
  revert H. match goal with |- ?p e o2 = _ -> _ => intros H; apply (ib_ret_inv e p o2 r o'); [|exact I2|exact H] end. ib.
Qed.
Lemma session_lands e t o r o' : wf e -> 0 <= o <= blen e -> parseDeployItem_session t e o = (Ret r, o') -> 0 <= o' <= blen e.
Proof.
  intros W I H. pose proof (wf_max e W). unfold parseDeployItem_session in H.
  destruct (t =? ModuleBytes); [|destruct (_ || _); [|destruct (_ || _); [|destruct (t =? Transfer); [|discriminate]]]].
  - revert H. apply ib_ret_inv; [|exact I]. unfold parseModuleBytes_session; ib.
  - unfold parseStoredContractByHash in H. bx H st o1 O. bx H u o2 A. bx H u2 o3 V. bx H en o4 E.
    assert (o1 = o) as -> by (unfold off32 in O; pinv; auto). apply advance_inv in A. subst o2.
    assert (in16 o3).
    { destruct (_ =? _); [bx V v q V1|]; apply ret_inv in V; destruct V as [_ ->]; [|apply u16_range].
      eapply safe_ok; [apply safe_version|exact W|apply u16_range|exact V1]. }
    apply entry_lands in E; auto. revert H. apply ib_ret_inv; [|exact E]. ib.
  - unfold parseStoredContractByName in H. bx H st o1 O. bx H u o2 A. bx H u2 o3 V. bx H en o4 E.
    assert (o1 = o) as -> by (unfold off32 in O; pinv; auto).
    apply (ib_ret_inv e) in A; [|ib|exact I].
    assert (0 <= o3 <= blen e) by (revert V; apply ib_ret_inv; [ib|exact A]).
    apply entry_lands in E; [|auto|unfold in16; lia]. revert H. apply ib_ret_inv; [|exact E]. ib.
  - revert H. apply ib_ret_inv; [|exact I]. unfold parseTransfer; ib.
Qed.

(** * Undefined behaviour while parsing *)
Lemma undef_bind {A B} (p : P A) (f : A -> P B) e o u : wf e -> in16 o -> safe p ->
  fst (bind p f e o) = Undef u -> exists a o', p e o = (Ret a, o') /\ in16 o' /\ fst (f a e o') = Undef u.
Proof.
  intros W I Sp H. specialize (Sp e o W I). unfold bind in H. destruct (p e o) as [[a|x|u'] o']; cbn [fst snd] in *.
  - exists a, o'. repeat split; try tauto; apply Sp.
  - discriminate.
  - destruct Sp as [_ Sp]. destruct (Sp u' eq_refl).
Qed.
Ltac ub H a o R I := apply undef_bind in H; [destruct H as (a & o & R & I & H) | assumption | assumption | saf].

(** a four-byte little-endian word at [o] too large to be the length of a string
    of at most 100 characters inside the buffer *)
Definition long_word (d : list Z) (o w : Z) : Prop :=
  here d o (le 4 w) /\ 0 <= w < 2 ^ 32 /\ (100 < w \/ zlen d < o + 4 + w).

(** the word at [p] follows the name "auction" (or "auction", NUL, anything) and
    the size of a value: it is the length of the string that is this value *)
Definition auction_word (d : list Z) (p : Z) : Prop :=
  exists nm v, here d (p - 4 - zlen (lv nm)) (lv nm ++ le 4 v) /\ 0 <= v <= 100 /\
    (nm = text "auction" \/ exists junk, nm = text "auction" ++ 0 :: junk).
Lemma cstr_split s : s = cstr s \/ exists junk, s = cstr s ++ 0 :: junk.
Proof.
  induction s as [|c s IH]; [left; reflexivity|]. cbn [cstr]. destruct (c =? 0) eqn:E.
  - right. exists s. replace c with 0 by lia. reflexivity.
  - destruct IH as [IH|(j & IH)]; [left|right; exists j]; cbn [Datatypes.app]; f_equal; exact IH.
Qed.
Lemma getData_found key n e o v t o' : wf e -> in16 o -> getData key n e o = (Ret (v, t), o') ->
  exists nm, at_ e (o' - 4 - zlen (lv nm)) (lv nm ++ le 4 v) /\ 0 <= v /\ cstr nm = key /\ in16 o'.
Proof.
  intros W I H. unfold getData in H. bx H f o1 LP. rewrite loop_iter in LP. revert o I LP. generalize (Z.to_nat n). intros k.
  induction k as [|k IH]; intros o I LP; cbn [iter_loop] in LP.
  - injection LP as <- <-. discriminate H.
  - bx LP f1 o2 Bd. unfold getData_body in Bd. bx Bd nm o3 C. pose proof I as I0. apply copy_item_inv in C; auto. destruct C as (An & Ln & ->).
    pose proof (wf_max e W). pose proof (at_bound _ _ _ W An) as Bn. pose proof (zlen_nonneg (lv nm)).
    assert (I3 : in16 (o + zlen (lv nm))) by (unfold in16 in *; lia).
    destruct (name_is nm key) eqn:N.
    + bx Bd len o4 R. apply readU32_inv in R; auto. destruct R as (V & A4 & L4 & ->). bx Bd q o5 G. apply get_off_inv in G. destruct G as [-> ->].
      bx Bd bl o6 K. bx Bd u o7 Ck. bx Bd u2 o8 Ad. bx Bd ty o9 Gt. bx Bd u3 o10 So. apply ret_inv in Bd. destruct Bd as [-> ->].
      injection LP as <- <-. cbn in H. injection H as -> _ <-. unfold set_off in So. injection So as _ <-.
      rewrite u16_small by (unfold in16 in *; lia). exists nm. replace (o + zlen (lv nm) + 4 - 4 - zlen (lv nm)) with o by lia.
      split; [rewrite at_app; split; [exact An|exact A4]|]. split; [lia|]. split; [apply list_eqb_eq; exact N|]. unfold in16 in *. lia.
    + bx Bd u o4 Pi. bx Bd ty o5 Gt. apply ret_inv in Bd. destruct Bd as [-> ->].
      pose proof (ranged_parse_item e _ I3) as I4. rewrite Pi in I4. pose proof (ranged_get_type 0 e _ I4) as I5. cbn [snd] in I5. rewrite Gt in I5.
      exact (IH _ I5 LP).
Qed.
(** Failure codes *)
Definition high {A} (p : P A) : Prop := forall e o x, fst (p e o) = Fail x -> 8 <= x.
Lemma hi_ret {A} (a : A) : high (ret a). Proof. intros e o x H; discriminate. Qed.
Lemma hi_fail {A} c : 8 <= c -> high (@fail A c). Proof. intros L e o x H. injection H as <-. exact L. Qed.
Lemma hi_undef {A} u : high (@undef A u). Proof. intros e o x H; discriminate. Qed.
Lemma hi_ask {A} (f : env -> A) : high (ask f). Proof. intros e o x H; discriminate. Qed.
Lemma hi_get : high get_off. Proof. intros e o x H; discriminate. Qed.
Lemma hi_set n : high (set_off n). Proof. intros e o x H; discriminate. Qed.
Lemma hi_slice i n : high (mem_slice i n). Proof. intros e o x H. unfold mem_slice in H. destruct (slice _ _ _); discriminate. Qed.
Lemma hi_check b c : 8 <= c -> high (check b c). Proof. intros L e o x H. destruct b; [discriminate|]. injection H as <-. exact L. Qed.
Lemma hi_bind {A B} (p : P A) (f : A -> P B) : high p -> (forall a, high (f a)) -> high (bind p f).
Proof. intros Hp Hf e o x H. unfold bind in H. specialize (Hp e o). destruct (p e o) as [[a|c|u] o']; cbn [fst] in *; [eapply Hf; exact H | injection H as <-; apply Hp; reflexivity | discriminate]. Qed.
Lemma hi_por it p q : high p -> (forall i, high (q i)) -> high (por it p q).
Proof.
  intros Hp Hq e o x H. unfold por, bind, try in H. specialize (Hp e o). destruct (p e o) as [[a|c|u] o']; cbn [fst] in *.
  - eapply Hq; exact H.
  - specialize (Hp c eq_refl). specialize (Hq it e o'). destruct (q it e o') as [[a|c2|u] o2]; cbn [fst] in *; try discriminate; injection H as <-; [lia|].
    cbn [fst] in *. specialize (Hq c2 eq_refl). assert (0 <= Z.lor c c2) by (apply Z.lor_nonneg; lia).
    pose proof (Z.log2_lor c c2 ltac:(lia) ltac:(lia)) as E. pose proof (Z.log2_le_mono 8 c Hp) as M. change (Z.log2 8) with 3 in M.
    destruct (Z_lt_le_dec (Z.lor c c2) 8) as [K|K]; [|exact K]. pose proof (Z.log2_le_mono (Z.lor c c2) 7 ltac:(lia)) as M2. change (Z.log2 7) with 2 in M2. lia.
  - discriminate.
Qed.
Lemma hi_mem i : high (mem_at i). Proof. intros e o x H. unfold mem_at in H. destruct (rd _ _); discriminate. Qed.
Ltac hi := repeat first [ apply hi_por; [|intros ?] | apply hi_bind; [|intros ?] | apply hi_ret | apply hi_ask | apply hi_get | apply hi_set | apply hi_slice
  | apply hi_mem | apply hi_undef | apply hi_fail; discriminate | apply hi_check; discriminate | assumption
  | match goal with |- high (if ?b then _ else _) => destruct b end ].
Lemma hi_read_le n : high (read_le n).
Proof. induction n as [|n IH]; cbn [read_le]; unfold advance; hi. Qed.
Lemma hi_typebytes f : forall t it, high (parse_additional_typebytes f t it).
Proof. induction f as [|f IH]; intros t it; cbn [parse_additional_typebytes]; hi; apply IH. Qed.
Lemma hi_type it : high (get_type it). Proof. unfold get_type, check_runtime_type. hi. apply hi_typebytes. Qed.
Lemma hi_item : high parse_item. Proof. unfold parse_item, advance. hi. Qed.
Lemma hi_copy c : high (copy_item_into_charbuffer c). Proof. unfold copy_item_into_charbuffer, advance. hi. Qed.
Lemma copy_item_skip c e o bs o' : wf e -> in16 o -> copy_item_into_charbuffer c e o = (Ret bs, o') -> parse_item e o = (Ret tt, o').
Proof.
  intros W I H. unfold copy_item_into_charbuffer in H. unfold parse_item.
  bx H n o1 R. pose proof R as R0. apply readU32_inv in R; auto. destruct R as (V & _ & L & ->). pose proof (wf_max e W).
  step R0. bx H q o2 G. apply get_off_inv in G. destruct G as [-> ->]. bx H m o3 M. cbn in M. injection M as <- <-. bx H u o4 C.
  apply check_inv in C. destruct C as [C ->]. apply andb_prop in C. destruct C as [C1 C2]. rewrite step_get_off, step_ask. unfold in16 in I.
  rewrite u32_small by lia. rewrite step_check by lia. bx H b o5 Sl. assert (o5 = o + 4) as ->.
  { unfold mem_slice in Sl. destruct (slice _ _ _); [|discriminate]. injection Sl as _ <-. reflexivity. }
  bx H u2 o6 A. apply ret_inv in H. destruct H as [_ ->]. destruct u2. exact A.
Qed.
(** looking for an argument that is not there ends where the arguments end *)
Lemma getData_none key n e o o' : wf e -> in16 o -> getData key n e o = (Fail parser_no_data, o') -> parseRuntimeArgs n e o = (Ret tt, o').
Proof.
  intros W I H. unfold parseRuntimeArgs.
  assert (L : loop (R := unit) n (fun _ => skip_arg ;; ret (Next tt)) tt e o = (Ret (Next tt), o')); [|step L; reflexivity].
  unfold getData in H. unfold bind at 1 in H. rewrite loop_iter in H. rewrite loop_iter.
  revert o I H. generalize (Z.to_nat n). intros k.
  induction k as [|k IH]; intros o I H; cbn [iter_loop] in *; [apply (f_equal snd) in H; cbn in H |- *; subst; reflexivity|].
  unfold bind at 1 in H.
  assert (B : exists o1, getData_body key tt e o = (Ret (Next tt), o1) /\ in16 o1 /\ skip_arg e o = (Ret tt, o1)).
  { destruct (getData_body key tt e o) as [[[[]|r]|x|u] o1] eqn:B.
    - exists o1. split; [reflexivity|].
      unfold getData_body in B. bx B nm o2 C. pose proof (copy_item_skip _ _ _ _ _ W I C) as Sk.
      destruct (name_is nm key); [repeat (let a := fresh in let b := fresh in let c := fresh in bx B a b c); discriminate B|].
      bx B u o3 Pi. bx B ty o4 Gt. apply ret_inv in B. destruct B as [_ ->]. destruct u.
      pose proof (ranged_parse_item e _ I) as I2. rewrite Sk in I2. pose proof (ranged_parse_item e _ I2) as I3. cbn [snd] in I3. rewrite Pi in I3.
      pose proof (ranged_get_type 0 e _ I3) as I4. cbn [snd] in I4. rewrite Gt in I4. split; [exact I4|].
      unfold skip_arg. step Sk. step Pi. step Gt. reflexivity.
    - cbn in H. discriminate H.
    - exfalso. assert (X : high (getData_body key tt)) by (unfold getData_body, advance; hi; try apply hi_typebytes; unfold advance; hi).
      specialize (X e o x). rewrite B in X. specialize (X eq_refl). cbn in H. injection H as -> _. unfold parser_no_data in X. lia.
    - discriminate H. }
  destruct B as (o1 & B & I1 & Sk). rewrite B in H. cbn beta iota in H.
  assert (Q : (skip_arg ;; ret (Next tt)) e o = (Ret (@Next unit unit tt), o1)) by (step Sk; reflexivity).
  step Q. apply IH; assumption.
Qed.
(** [p] is where the [n] arguments starting at [o] end; if the search for
    "new_validator" gave up before (a name of more than 300 bytes, a wrong type),
    [n] arguments are counted from where it stopped *)
Definition args_end (e : env) (n o p : Z) : Prop :=
  exists o', parseRuntimeArgs n e o' = (Ret tt, p) /\ (o' = o \/ exists c, searchRuntimeArgs (str "new_validator") n e o = (Fail c, o')).
Lemma module_undef e i n o u : wf e -> in16 o -> fst (parseDelegation_module i n e o) = Undef u ->
  exists p w, long_word (mem e) p w /\ (auction_word (mem e) p \/ wasm e = false /\ args_end e n o p).
Proof.
  intros W I H. unfold parseDelegation_module in H.
  ub H st o1 R1 I1. ub H r o2 R2 I2. ub H d o3 R3 I3. ub H ih o4 R4 I4. ub H w o5 R5 I5. ub H q o6 R6 I6.
  apply readU32_inv in R5; auto. destruct R5 as (V & At & L & ->). apply get_off_inv in R6. destruct R6 as [-> ->].
  exists o4, w. split; [split; [apply at_here; exact At|]; split; [lia|]|].
  - pose proof (wf_len e W) as Lm.
    destruct (Z_le_gt_dec w 100) as [K|K]; [|lia]. right.
    destruct (Z_lt_le_dec (zlen (mem e)) (o4 + 4 + w)) as [K2|K2]; [exact K2|exfalso].
    destruct (slice_total (mem e) (o4 + 4) w) as (bs & Sl); try (unfold in16 in *; lia).
    rewrite (step_slice _ _ bs) in H by exact Sl. unfold require in H. replace (w <=? 100) with true in H by lia. rewrite step_ret in H.
    revert H. match goal with |- fst (?q _ _) = _ -> _ => enough (Q : safe q) by (apply Q; assumption) end. saf.
  - apply get_off_inv in R1. destruct R1 as [-> ->].
    assert (Q : o2 = o \/ exists c, searchRuntimeArgs (str "new_validator") n e o = (Fail c, o2)).
    { unfold try in R2. destruct (searchRuntimeArgs (str "new_validator") n e o) as [[a|c|x] o2'] eqn:X; try discriminate R2; injection R2 as _ <-.
      - left. eapply search_off; eauto.
      - right. eauto. }
    unfold try in R3. destruct (getData (str "auction") n e o2) as [[[v t]|x|u'] o3'] eqn:G; try discriminate R3; injection R3 as <- <-.
    + left. pose proof (getData_found _ _ _ _ _ _ _ W I2 G) as (nm & An & Nv & Cn & _). cbn [fst snd] in R4. pinv.
      exists nm, v. split; [apply at_here; exact An|].
      match goal with X : (v <=? 100) && _ = true |- _ => apply andb_prop in X; destruct X as [X _] end.
      split; [lia|]. change (text "auction") with (str "auction"). rewrite <- Cn. apply cstr_split.
    + right. destruct (x =? parser_no_data) eqn:E; [|discriminate R4]. pinv. destruct (wasm e); [discriminate|]. pinv.
      split; [reflexivity|]. exists o2. split; [|exact Q]. apply (getData_none (str "auction")); auto. replace parser_no_data with x by lia. exact G.
Qed.
Lemma undef_first {A B} (p : P A) (f : A -> P B) e o u : wf e -> in16 o -> ranged p -> (forall a, safe (f a)) ->
  fst (bind p f e o) = Undef u -> fst (p e o) = Undef u.
Proof.
  intros W I Rp Sf H. specialize (Rp e o I). unfold bind in H. destruct (p e o) as [[a|x|u'] o']; cbn [fst snd] in *.
  - destruct (Sf a e o' W Rp) as [_ N]. destruct (N u H).
  - discriminate.
  - congruence.
Qed.
(** [p] is where the arguments of the module that starts at [o] end *)
Definition module_end (e : env) (o p : Z) : Prop :=
  exists o1 n o2, parse_item e o = (Ret tt, o1) /\ readU32 e o1 = (Ret n, o2) /\ args_end e n o2 p.
Lemma session_undef e t o u : wf e -> in16 o -> fst (parseDeployItem_session t e o) = Undef u ->
  t = 0 /\ exists p w, long_word (mem e) p w /\ (auction_word (mem e) p \/ wasm e = false /\ module_end e o p).
Proof.
  intros W I H. assert (T : t = 0).
  { destruct (Z.eq_dec t 0) as [T|T]; [exact T|exfalso]. apply (safe_session t T e o W I) in H. exact H. }
  split; [exact T|]. subst t.
  change (parseDeployItem_session 0) with (i' <- parseModuleBytes_session (init_item 0) ;; ret (i', 0)) in H.
  apply undef_first in H; [|assumption|assumption|unfold parseModuleBytes_session; rng|intros; saf].
  unfold parseModuleBytes_session in H. ub H st o1 R1 I1. ub H x o2 R2 I2. ub H n o3 R3 I3.
  apply undef_first in H; [|assumption|assumption|rng|intros; saf].
  change (parseDelegation (init_item 0) n false) with
    (m <- parseDelegation_module (init_item 0) n ;; parseDelegation_args (fst (fst m)) n (snd (fst m)) (snd m)) in H.
  apply undef_first in H; [|assumption|assumption|unfold parseDelegation_module; rng|intros; saf].
  destruct (module_undef e (init_item 0) n o3 u W I3 H) as (p & w & Lw & Q). exists p, w. split; [exact Lw|].
  destruct Q as [Q|[Nw Q]]; [left; exact Q|right; split; [exact Nw|]]. assert (o1 = o) as -> by (unfold off32 in R1; pinv; auto). destruct x.
  exists o2, n, o3. auto.
Qed.
Lemma deploy_undef e u : wf e -> fst (parser_read_deploy e 0) = Undef u ->
  exists h pay q p w, read_payment e (u16 (header_length_deploy h + 32)) = (Ret pay, q) /\ here (mem e) q [0] /\ long_word (mem e) p w /\
    (auction_word (mem e) p \/ module_end e (q + 1) p).
Proof.
  intros W H. assert (I : in16 0) by (unfold in16; lia). unfold parser_read_deploy in H.
  ub H n o1 R1 I1. ub H x o2 R2 I2. ub H pk o3 R3 I3. ub H y o4 R4 I4. ub H h o5 R5 I5. ub H z o6 R6 I6. ub H pay o7 R7 I7. ub H t o8 R8 I8.
  apply undef_first in H; [|assumption|assumption|rng|intros; saf].
  apply session_undef in H; auto. destruct H as (-> & p & w & Lw & Q).
  cbn in R6. injection R6 as _ <-. exists h, pay, o7, p, w. split; [exact R7|].
  unfold parseDeployType in R8. bx R8 t o9 R9. apply readU8_inv in R9; auto. destruct R9 as (V & At & _ & ->).
  pinv. split; [apply at_here; assumption|]. split; [exact Lw|]. destruct Q as [Q|[_ Q]]; auto.
Qed.

(** * The hash checks *)
Lemma hashes_defined e v o u : wf e -> parser_read_deploy e 0 = (Ret v, o) -> header_length_deploy (dheader v) + 32 <= blen e ->
  forall o', fst (validateTxDeploy v e o') <> Undef u.
Proof.
  intros W R L o'. pose proof (wf_max e W) as M. pose proof (wf_len e W) as Lm. pose proof (header_len_range (dheader v)) as Hr.
  destruct (deploy_inv e v o W R) as (o1 & t & A0 & _ & _ & _ & Ad & _ & Rp & At & _ & Rs & Ts & Ls & I1 & I2 & _).
  rewrite u16_small in Rp by lia. 
  assert (Ip : in16 (header_length_deploy (dheader v) + 32)) by (unfold in16; lia).
  destruct (payment_inv e _ _ _ W Ip Rp) as (_ & _ & _ & _ & _ & _ & _ & Tp & Lp & _).
  apply at_bound in At; auto. change (zlen [t]) with 1 in At. apply at_bound in Ad; auto. rewrite le_length in Ad.
  apply session_lands in Rs; [|auto|lia].
  unfold validateTxDeploy. rewrite step_ask.
  destruct (slice_total (mem e) 0 (header_length_deploy (dheader v))) as (hdr & S1); try lia. rewrite (step_slice _ _ hdr) by exact S1.
  destruct (slice_total (mem e) (header_length_deploy (dheader v)) 32) as (dh & S2); try lia. rewrite (step_slice _ _ dh) by exact S2.
  unfold bind at 1, check at 1. destruct (list_eqb _ _); [|discriminate]. cbv beta iota delta [ret].
  rewrite u16_small by lia. rewrite u32_small by lia.
  destruct (slice_total (mem e) (header_length_deploy (dheader v) + 32) (totalLength (payment v) + totalLength (session v))) as (bd & S3); try lia.
  rewrite (step_slice _ _ bd) by exact S3. unfold bind at 1. destruct (index_headerpart_deploy _ _ e o') as [[i|c|u'] o2] eqn:X.
  - apply index_inv in X. destruct X as (q & -> & _ & ->). unfold pubkeyLen in *.
    assert (PK : 0 <= pubkeyLen (dheader v) <= 34) by (unfold pubkeyLen; destruct (_ =? 2); lia). unfold pubkeyLen in *.
    rewrite step_get_off. rewrite u16_small by lia.
    match goal with |- context [mem_slice ?a 32] => destruct (slice_total (mem e) a 32) as (bh & S4); try lia end.
    rewrite (step_slice _ _ bh) by exact S4. unfold check. destruct (list_eqb _ _); discriminate.
  - discriminate.
  - exfalso. pose proof (safe_index (dheader v) header_bodyhash e 0 W ltac:(unfold in16; lia)) as [_ N].
    unfold index_headerpart_deploy in *. revert X. cbv [bind ask get_off check ret set_off fst]. destruct (_ <=? _); discriminate.
Qed.

Lemma parse_deploy pf x data : zlen data < 65535 -> data <> [] ->
  parser_parse pf x (0 :: data) =
  match fst (parser_read_deploy (ctx_of pf x false 40 data (zlen data)) 0) with
  | Ret v => Ret (TDeploy v) | Fail c => Fail c | Undef u => Undef u end.
Proof.
  intros L N. unfold parser_parse. pose proof (zlen_nonneg data). rewrite zlen_cons, u16_small by lia.
  destruct data as [|b data]; [contradiction|]. rewrite zlen_cons in *. pose proof (zlen_nonneg data).
  replace (1 + (1 + zlen data) =? 0) with false by lia. replace (1 + (1 + zlen data) =? 1) with false by lia.
  replace (1 + (1 + zlen data) - 1) with (1 + zlen data) by lia. unfold parse_content, content_Deploy, content_TransactionV1.
  cbn [Z.eqb Pos.eqb]. unfold bind. destruct (parser_read_deploy _ 0) as [[v|c|u] o]; reflexivity.
Qed.

(** C29 *)
Lemma parse_deploy_undef pf x data u : hash32 (p_hash pf) -> bytes data -> zlen data < 65535 ->
  parser_parse pf x (0 :: data) = Undef u ->
  exists h pay q p w, read_payment (ctx_of pf x false 40 data (zlen data)) (u16 (header_length_deploy h + 32)) = (Ret pay, q) /\
    here data q [0] /\ long_word data p w /\
    (auction_word data p \/ module_end (ctx_of pf x false 40 data (zlen data)) (q + 1) p).
Proof.
  intros Hh B L H. destruct (list_eq_dec Z.eq_dec data []) as [->|N]; [discriminate H|].
  rewrite parse_deploy in H by auto. assert (W : wf (ctx_of pf x false 40 data (zlen data))) by (apply wf_ctx; auto; lia).
  apply (deploy_undef _ u) in W; [exact W|]. destruct (fst _); try discriminate. congruence.
Qed.

(** C30 *)
Lemma deploy_undef_from pf x data u : hash32 (p_hash pf) -> bytes data -> zlen data < 65535 ->
  tx_parse pf x (0 :: data) = Undef u ->
  parser_parse pf x (0 :: data) = Undef u \/
  exists v, parser_parse pf x (0 :: data) = Ret (TDeploy v) /\
    (zlen data < header_length_deploy (dheader v) + 32 \/
     exists idx, 0 <= idx < getNumItems x (TDeploy v) /\ tx_getItem pf x 40 (0 :: data) (TDeploy v) idx = Undef u).
Proof.
  intros Hh B L H. destruct (list_eq_dec Z.eq_dec data []) as [->|N]; [discriminate H|].
  rewrite parse_deploy by auto.
  assert (W : wf (ctx_of pf x false 40 data (zlen data))) by (apply wf_ctx; auto; lia).
  unfold tx_parse in H. pose proof (zlen_nonneg data). rewrite zlen_cons, u16_small in H by lia.
  destruct data as [|b data']; [contradiction|]. rewrite zlen_cons in H. pose proof (zlen_nonneg data').
  replace (1 + (1 + zlen data') =? 0) with false in H by lia. replace (1 + (1 + zlen data') =? 1) with false in H by lia.
  replace (1 + (1 + zlen data') - 1) with (zlen (b :: data')) in H by (rewrite zlen_cons; lia). set (data := b :: data') in *.
  set (e := ctx_of pf x false 40 data (zlen data)) in *.
  unfold parse_content, content_Deploy, content_TransactionV1 in H. cbn [Z.eqb Pos.eqb] in H.
  unfold bind at 1 2 in H. destruct (parser_read_deploy e 0) as [[v|c|u'] o] eqn:R; cbn [fst ret] in H |- *; try discriminate; [|left; congruence].
  right. exists v. split; [reflexivity|].
  destruct (Z_lt_le_dec (zlen data) (header_length_deploy (dheader v) + 32)) as [K|K]; [left; exact K|right].
  unfold parser_validate in H. unfold bind at 1 2 in H.
  pose proof (fun u => hashes_defined e v o u W R K o) as V.
  destruct (validateTxDeploy v e o) as [[r|c|u'] o1]; [|discriminate|exfalso; apply (V u'); reflexivity]. rewrite step_ask in H.
  change (expert e) with x in H.
  destruct (items_from (TDeploy v) 0 (Z.to_nat (getNumItems x (TDeploy v))) e o1) as [[its|c|u'] o2] eqn:It; try discriminate. cbn [fst] in H.
  destruct (items_undef (TDeploy v) e u (Z.to_nat (getNumItems x (TDeploy v))) 0 o1) as (k & o3 & Hk & Gk); [rewrite It; cbn [fst]; congruence|].
  exists k. split; [lia|]. unfold tx_getItem. rewrite zlen_cons, u16_small by lia. replace (1 + zlen data - 1) with (zlen data) by lia.
  fold e. cbn [getItem] in *. rewrite (item_any_off v k e 0 o3). exact Gk.
Qed.

(** once accepted, nothing is undefined *)
Lemma deploy_items_defined pf x kl data v idx u : hash32 (p_hash pf) -> bytes data -> zlen data < 65535 ->
  tx_parse pf x (0 :: data) = Ret (TDeploy v) -> 0 <= idx -> tx_getItem pf x kl (0 :: data) (TDeploy v) idx <> Undef u.
Proof.
  intros Hh B L P I. destruct (shown_all pf x kl data v Hh B L P) as [_ V]. destruct (V idx) as [V1 V2].
  destruct (Z_lt_le_dec idx (getNumItems x (TDeploy v))) as [K|K].
  - destruct V1 as (it & G); [lia|]. rewrite G. discriminate.
  - rewrite V2 by exact K. discriminate.
Qed.
Lemma v1_items_defined pf x kl data v idx u : zlen data < 65535 ->
  tx_parse pf x (1 :: data) = Ret (TV1 v) -> 0 <= idx -> tx_getItem pf x kl (1 :: data) (TV1 v) idx <> Undef u.
Proof.
  intros L P I. destruct (v1_shown_all pf x kl data v L P) as [_ V]. destruct (V idx) as [V1 V2].
  destruct (Z_lt_le_dec idx (getNumItems x (TV1 v))) as [K|K].
  - destruct V1 as (it & G); [lia|]. rewrite G. discriminate.
  - rewrite V2 by exact K. discriminate.
Qed.
