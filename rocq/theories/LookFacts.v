(** Transactions whose reviews agree. *)
From Verif Require Import Base Zxlib Crypto Utils RuntimeArg Deploy DeployUI TxV1 TxV1UI Parser BaseFacts Spec SpecText SpecDeploy SpecTx SpecLook Exec ArgsFacts ReaderFacts TextFacts Shows DeployArgs SessionFacts ReviewFacts Demo DeployCases.
Import S ST SD SX SK.

(** Both are accepted, have as many items, and show the same, except for the
    first item, the transaction hash. *)
Definition look_alike (pf : platform) (x : bool) (da db : list Z) : Prop :=
  exists ta tb, tx_parse pf x da = Ret ta /\ tx_parse pf x db = Ret tb /\
    getNumItems x ta = getNumItems x tb /\
    forall i, 0 < i < getNumItems x ta -> tx_getItem pf x 40 da ta i = tx_getItem pf x 40 db tb i.

Definition same_line (H : list Z -> list Z) (tf : Z -> option (list Z)) (a b : line) : Prop :=
  fst a = fst b /\ exists d, renders H tf (snd a) d /\ renders H tf (snd b) d.

Lemma nth_Forall2 {A B} (R : A -> B -> Prop) : forall l m, List.length l = List.length m ->
  (forall i a b, nth_error l i = Some a -> nth_error m i = Some b -> R a b) -> Forall2 R l m.
Proof.
  induction l as [|a l IH]; intros [|b m] L H; try discriminate L; constructor.
  - apply (H 0%nat); reflexivity.
  - apply IH; [cbn in L; lia|]. intros i. apply (H (Datatypes.S i)).
Qed.

Lemma alike_lines pf x da db la lb A B : reviews pf x da (la :: A) -> reviews pf x db (lb :: B) -> look_alike pf x da db ->
  Forall2 (same_line (p_hash pf) (p_time pf)) A B.
Proof.
  intros (ta & Pa & Na & Da) (tb & Pb & Nb & Db) (ta' & tb' & Pa' & Pb' & N & I).
  assert (ta' = ta) by congruence. assert (tb' = tb) by congruence. subst ta' tb'. rewrite zlen_cons in Na, Nb.
  apply nth_Forall2; [unfold zlen in *; lia|].
  intros i a b Ha Hb. pose proof (nth_cases _ _ _ Ha) as La.
  destruct (Da (Datatypes.S i) a Ha 40) as (ia & Ga & Ka & Ra). destruct (Db (Datatypes.S i) b Hb 40) as (ib & Gb & Kb & Rb).
  specialize (I (Z.of_nat (Datatypes.S i)) ltac:(unfold zlen in *; lia)). assert (ia = ib) by congruence. subst ib.
  split; [congruence|]. exists (ival ia). split; assumption.
Qed.

(** Values that are shown in hexadecimal consist of bytes. *)
Definition viewable (v : view) : Prop :=
  match v with Hex bs => bytes bs | KeyText t k => 0 <= t < 160 /\ bytes k | _ => True end.
Lemma line_eq H tf a b v w : kin v w -> viewable v -> viewable w -> same_line H tf (a, v) (b, w) -> v = w.
Proof.
  intros K V W (_ & d & R1 & R2). cbn [snd] in *. apply (renders_inj H tf v w d); auto.
  destruct v, w; cbn [kin viewable same_kind] in *; tauto.
Qed.

Lemma bytes_removelast l : bytes l -> bytes (removelast l).
Proof.
  intros B. destruct l as [|a l]; [exact B|]. destruct (exists_last (l := a :: l) ltac:(discriminate)) as (p & y & E).
  rewrite E in *. rewrite removelast_last. apply bytes_app in B. tauto.
Qed.
Lemma hex_viewable bs v : bytes bs -> hex_bytes bs = Some v -> viewable v.
Proof. intros B E. apply hex_bytes_inv in E. destruct E as [_ ->]. exact B. Qed.
Lemma num_viewable n bs v : num_bytes n bs = Some v -> viewable v.
Proof. intros E. apply num_bytes_inv in E. destruct E as [_ ->]. exact I. Qed.
Lemma arg_viewable ty val v : bytes val -> arg_view ty val = Some v -> viewable v.
Proof.
  intros B E. destruct ty as [g|t| |n| | | | | ]; try discriminate E.
  - apply arg_view_prim in E.
    destruct E as [[_ E]|[[_ E]|[[_ E]|[[_ (m & _ & ->)]|[[_ (t & bs & -> & E)]|[[_ E]|[_ (t & key & -> & -> & E)]]]]]]];
      try (eapply num_viewable; eassumption); try exact I.
    + inversion B; subst. eapply hex_viewable; eassumption.
    + eapply hex_viewable; [|eassumption]. apply bytes_removelast; assumption.
    + inversion B; subst. cbn. split; [lia | assumption].
  - cbn [arg_view] in E. destruct val as [|c val]; [discriminate E|].
    destruct c as [|[p|p|]|p]; try (destruct val); try discriminate E; try (injection E as <-; exact I);
      destruct t as [g| | | | | | | | ]; try discriminate E;
      destruct g as [|q|q]; try discriminate E; repeat (destruct q as [q|q|]; try discriminate E);
      try (eapply num_viewable; eassumption); inversion B; subst; (eapply hex_viewable; [|eassumption]); apply bytes_removelast; assumption.
  - cbn [arg_view] in E. destruct (_ =? n); [|discriminate E]. eapply hex_viewable; eassumption.
Qed.
Lemma amount_motes ty val v : amount_view ty val = Some v -> exists n, v = Motes n.
Proof.
  unfold amount_view. intros E. destruct ty as [g| | | | | | | | ]; try discriminate E.
  destruct g as [|q|q]; try discriminate E; repeat (destruct q as [q|q|]; try discriminate E).
  all: try (destruct (big_number val); [|discriminate E]; injection E as <-; eauto).
  all: unfold num_bytes in E; destruct (_ =? _); [|discriminate E]; injection E as <-; eauto.
Qed.

Lemma args_bytes l a : bytes (enc_args l) -> In a l -> bytes (a_val a).
Proof.
  intros B I. unfold enc_args in B. apply bytes_app in B. destruct B as [_ B].
  induction l as [|b l IH]; [contradiction|]. cbn [enc_arg_list List.map List.concat] in B. apply bytes_app in B. destruct B as [B1 B2].
  destruct I as [->|I]; [|auto]. unfold enc_arg, lv in B1. rewrite !bytes_app in B1. tauto.
Qed.
Lemma deploy_args_bytes H d a : good_deploy H d -> In a (args_of (d_session d)) -> bytes (a_val a).
Proof.
  intros G I. apply args_bytes with (l := args_of (d_session d)); auto.
  pose proof (gd_bytes _ _ G) as B. change (bytes (enc_deploy d)) in B. unfold enc_deploy, enc_body in B. rewrite !bytes_app in B.
  destruct B as (_ & _ & (_ & B) & _). destruct (d_session d) as [w l|t ep l|l]; cbn [enc_session args_of] in *.
  - change (bytes ([0] ++ lv w ++ enc_args l)) in B. rewrite !bytes_app in B. tauto.
  - rewrite !bytes_app in B. tauto.
  - change (bytes ([5] ++ enc_args l)) in B. rewrite !bytes_app in B. tauto.
Qed.
Lemma carried H d l name ok v : good_deploy H d -> (forall a, In a l -> In a (args_of (d_session d))) ->
  carries l name ok arg_view v -> viewable v.
Proof.
  intros G S (a & F & _ & V). apply find_arg_in in F. eapply arg_viewable; [|exact V]. eapply deploy_args_bytes; eauto. apply S, F.
Qed.
Lemma carried_key H d l name v : good_deploy H d -> (forall a, In a l -> In a (args_of (d_session d))) ->
  carries l name is_key_type arg_view v -> viewable v /\ exists t k, v = KeyText t k.
Proof.
  intros G S C. split; [eapply carried; eauto|]. destruct C as (a & _ & O & V). unfold is_key_type in O.
  destruct (a_ty a) as [g| | | | | | | | ]; try discriminate O. apply arg_view_prim in V.
  destruct g as [|q|q]; try discriminate O; repeat (destruct q as [q|q|]; try discriminate O).
  destruct V as [[E _]|[[E _]|[[E _]|[[E _]|[[E _]|[[E _]|(_ & t & k & _ & -> & _)]]]]]]; try discriminate E. eauto.
Qed.
Lemma carried_amount l name ok v : carries l name ok amount_view v -> exists n, v = Motes n.
Proof. intros (a & _ & _ & V). eapply amount_motes; eauto. Qed.
Lemma carried_id l name v : carries l name is_id_type arg_view v -> (exists n, v = Number n) \/ v = Words (text "Null").
Proof.
  intros (a & _ & O & V). unfold is_id_type in O. destruct (a_ty a) as [g|t| | | | | | | ]; try discriminate O.
  - destruct g as [|q|q]; try discriminate O; repeat (destruct q as [q|q|]; try discriminate O).
    cbn [arg_view] in V. apply num_bytes_inv in V. destruct V as [_ ->]. eauto.
  - destruct t as [g| | | | | | | | ]; try discriminate O.
    destruct g as [|q|q]; try discriminate O; repeat (destruct q as [q|q|]; try discriminate O).
    cbn [arg_view] in V. destruct (a_val a) as [|c r]; [discriminate V|].
    destruct c as [|[p|p|]|p]; try (destruct r); try discriminate V; try (injection V as <-; auto);
      apply num_bytes_inv in V; destruct V as [_ ->]; eauto.
Qed.

Lemma Forall2_length {A B} (R : A -> B -> Prop) l m : Forall2 R l m -> List.length l = List.length m.
Proof. induction 1; cbn; congruence. Qed.
Lemma Forall2_suffix {A B} (R : A -> B -> Prop) a b c d : Forall2 R (a ++ b) (c ++ d) -> List.length b = List.length d ->
  Forall2 R a c /\ Forall2 R b d.
Proof.
  intros F L. pose proof (Forall2_length _ _ _ F) as T. rewrite !app_length in T.
  apply Forall2_app_inv_l in F. destruct F as (c' & d' & F1 & F2 & E).
  pose proof (Forall2_length _ _ _ F1). pose proof (Forall2_length _ _ _ F2).
  assert (X : c = c' /\ d = d'); [|destruct X as [-> ->]; auto].
  assert (LC : List.length c = List.length c') by lia. clear - E LC. revert c' E LC.
  induction c as [|y c IH]; intros [|z c'] E L; try discriminate L; cbn in *; [auto|]. injection E as <- E.
  destruct (IH c' E) as [-> ->]; auto.
Qed.

(** * Deploys *)
Lemma context_bytes H d : good_deploy H d -> bytes (h_key (d_header d)) /\ 0 <= h_alg (d_header d) < 160.
Proof.
  intros G. pose proof (gd_bytes _ _ G) as B. change (bytes (enc_deploy d)) in B. unfold enc_deploy, enc_header in B. rewrite !bytes_app in B.
  split; [tauto|]. destruct (gh_alg _ (gd_header _ _ G)); lia.
Qed.

(** the lines common to all deploys *)
Lemma around_inv pf x a b p q : good_deploy (p_hash pf) a -> good_deploy (p_hash pf) b ->
  Forall2 (same_line (p_hash pf) (p_time pf)) (tl (around x a p)) (tl (around x b q)) ->
  same_context (p_time pf) x a b /\ text (type_text (d_session a)) = text (type_text (d_session b)) /\
  Forall2 (same_line (p_hash pf) (p_time pf)) p q.
Proof.
  intros Ga Gb F. destruct (context_bytes _ _ Ga) as [Ba Aa]. destruct (context_bytes _ _ Gb) as [Bb Ab].
  unfold around in F. cbn [app tl] in F.
  inversion F as [|? ? ? ? T F1]; subst. inversion F1 as [|? ? ? ? C F2]; subst. inversion F2 as [|? ? ? ? K F3]; subst. clear F F1 F2.
  apply line_eq in T; [|exact I..]. apply line_eq in C; [|exact I..]. apply line_eq in K; [|exact I|cbn; auto..].
  injection T as T. injection C as C. injection K as K1 K2.
  assert (R : exists p' q', Forall2 (same_line (p_hash pf) (p_time pf)) (ln "Fee" (Motes (value (p_amount (d_payment a)))) :: p') (ln "Fee" (Motes (value (p_amount (d_payment b)))) :: q') /\
     Forall2 (same_line (p_hash pf) (p_time pf)) p q /\ (x = true ->
    p_time pf (h_time (d_header a) / 1000) = p_time pf (h_time (d_header b) / 1000) /\
    h_ttl (d_header a) / 1000 = h_ttl (d_header b) / 1000 /\
    h_gas (d_header a) = h_gas (d_header b) /\
    S.len (h_deps (d_header a)) = S.len (h_deps (d_header b)) /\
    S.len (d_approvals a) = S.len (d_approvals b))).
  { destruct x; cbn [app] in F3.
    - inversion F3 as [|? ? ? ? E1 F4]; subst. inversion F4 as [|? ? ? ? E2 F5]; subst. inversion F5 as [|? ? ? ? E3 F6]; subst. inversion F6 as [|? ? ? ? E4 F7]; subst.
      inversion F7 as [|? ? ? ? E5 F8]; subst. apply Forall2_suffix in F8; [|reflexivity]. destruct F8 as [F8 F9].
      inversion F9 as [|? ? ? ? E6 _]; subst.
      eexists _, _. split; [constructor; [exact E5 | exact F8]|]. split; [exact F8|]. intros _.
      destruct E1 as (_ & d & (s & S1 & ->) & (s' & S2 & X)). injection X as <-.
      apply line_eq in E2; [|exact I..]. apply line_eq in E3; [|exact I..]. apply line_eq in E4; [|exact I..]. apply line_eq in E6; [|exact I..].
      injection E2 as E2. injection E3 as E3. injection E4 as E4. injection E6 as E6. repeat split; congruence.
    - rewrite !app_nil_r in F3. inversion F3 as [|? ? ? ? E5 F8]; subst. eexists _, _. split; [exact F3|]. split; [exact F8|]. discriminate. }
  destruct R as (p' & q' & F4 & F5 & EX). inversion F4 as [|? ? ? ? E _]; subst. apply line_eq in E; [|exact I..]. injection E as E.
  split; [constructor; auto|]. split; auto.
Qed.

Lemma around_cons x d p : exists r, around x d p = ln "Txn hash" (Hex (d_hash d)) :: r /\ tl (around x d p) = r.
Proof. eexists. split; reflexivity. Qed.

Lemma deploys_alike pf x a b p q : good_deploy (p_hash pf) a -> good_deploy (p_hash pf) b ->
  reviews pf x (enc_tx a) (around x a p) -> reviews pf x (enc_tx b) (around x b q) -> look_alike pf x (enc_tx a) (enc_tx b) ->
  same_context (p_time pf) x a b /\ text (type_text (d_session a)) = text (type_text (d_session b)) /\
  Forall2 (same_line (p_hash pf) (p_time pf)) p q.
Proof.
  intros Ga Gb Ra Rb AL. apply around_inv; auto.
  destruct (around_cons x a p) as (ra & Ea & ->). destruct (around_cons x b q) as (rb & Eb & ->). rewrite Ea in Ra. rewrite Eb in Rb.
  eapply alike_lines; eauto.
Qed.

Lemma transfers_review pf x d s t a i : hash32 (p_hash pf) -> good_deploy (p_hash pf) d -> expert_ok x (p_time pf) (d_header d) ->
  transfers d s t a i ->
  reviews pf x (enc_tx d) (around x d ((match s with Some v => if x then [ln "From" v] else [] | None => [] end)
    ++ [ln "Target" t; ln "Amount" a] ++ (if x then [ln "ID" i] else []))).
Proof.
  intros Hh G EX [(l & ES & L & CT & CA & CI & CS)]. destruct s as [s|].
  - apply (transfer4 pf x d l s t a i); auto.
  - apply (transfer3 pf x d l t a i); auto.
Qed.

Lemma kin_viewable_eq H tf a b v w : kin v w -> viewable v -> viewable w -> same_line H tf (ln a v) (ln b w) -> v = w.
Proof. apply line_eq. Qed.

Lemma transfers_alike pf x a b sa ta ma ia sb tb mb ib :
  hash32 (p_hash pf) -> good_deploy (p_hash pf) a -> good_deploy (p_hash pf) b ->
  expert_ok x (p_time pf) (d_header a) -> expert_ok x (p_time pf) (d_header b) ->
  transfers a sa ta ma ia -> transfers b sb tb mb ib -> kin ta tb -> kin_opt sa sb ->
  look_alike pf x (enc_tx a) (enc_tx b) ->
  same_context (p_time pf) x a b /\ ta = tb /\ ma = mb /\ (x = true -> ia = ib /\ sa = sb).
Proof.
  intros Hh Ga Gb Xa Xb Ta Tb KT KS AL.
  pose proof (transfers_review pf x a _ _ _ _ Hh Ga Xa Ta) as Ra. pose proof (transfers_review pf x b _ _ _ _ Hh Gb Xb Tb) as Rb.
  destruct (deploys_alike pf x a b _ _ Ga Gb Ra Rb AL) as (SC & _ & F). split; [exact SC|].
  destruct Ta as [(la & Ea & La & CTa & CAa & CIa & CSa)]. destruct Tb as [(lb & Eb & Lb & CTb & CAb & CIb & CSb)].
  assert (Ia : forall y, In y la -> In y (args_of (d_session a))) by (rewrite Ea; auto).
  assert (Ib : forall y, In y lb -> In y (args_of (d_session b))) by (rewrite Eb; auto).
  pose proof (carried _ _ _ _ _ _ Ga Ia CTa) as VTa. pose proof (carried _ _ _ _ _ _ Gb Ib CTb) as VTb.
  destruct (carried_amount _ _ _ _ CAa) as (na & ->). destruct (carried_amount _ _ _ _ CAb) as (nb & ->).
  assert (ID : same_line (p_hash pf) (p_time pf) (ln "ID" ia) (ln "ID" ib) -> ia = ib).
  { intros SL. destruct (carried_id _ _ _ CIa) as [(n & ->)| -> ]; destruct (carried_id _ _ _ CIb) as [(m & ->)| -> ]; try reflexivity.
    - apply line_eq in SL; [exact SL | exact I..].
    - destruct SL as (_ & d & (s & _ & ->) & X). discriminate X.
    - destruct SL as (_ & d & X & (s & _ & Y)). cbn in X. congruence. }
  assert (NX : forall s t, Forall2 (same_line (p_hash pf) (p_time pf)) (ln "From" s :: t) [ln "Target" tb; ln "Amount" (Motes nb)] -> False) by (intros s t X; inversion X as [|? ? ? ? (Y & _) _]; discriminate Y).
  destruct x; cbn [app] in F.
  - destruct sa as [va|], sb as [vb|]; cbn [app] in F.
    + inversion F as [|? ? ? ? E0 F1]; subst. inversion F1 as [|? ? ? ? E1 F2]; subst. inversion F2 as [|? ? ? ? E2 F3]; subst. inversion F3 as [|? ? ? ? E3 _]; subst.
      apply line_eq in E1; auto. apply line_eq in E2; [|exact I..].
      apply line_eq in E0; [|exact KS | exact (carried _ _ _ _ _ _ Ga Ia CSa) | exact (carried _ _ _ _ _ _ Gb Ib CSb)].
      split; [exact E1|]. split; [exact E2|]. intros _. split; [exact (ID E3) | congruence].
    + apply Forall2_length in F. discriminate F.
    + apply Forall2_length in F. discriminate F.
    + inversion F as [|? ? ? ? E1 F2]; subst. inversion F2 as [|? ? ? ? E2 F3]; subst. inversion F3 as [|? ? ? ? E3 _]; subst.
      apply line_eq in E1; auto. apply line_eq in E2; [|exact I..].
      split; [exact E1|]. split; [exact E2|]. intros _. split; [exact (ID E3) | reflexivity].
  - assert (F' : Forall2 (same_line (p_hash pf) (p_time pf)) [ln "Target" ta; ln "Amount" (Motes na)] [ln "Target" tb; ln "Amount" (Motes nb)])
      by (destruct sa, sb; exact F).
    inversion F' as [|? ? ? ? E1 F2]; subst. inversion F2 as [|? ? ? ? E2 F3]; subst.
    apply line_eq in E1; auto. apply line_eq in E2; [|exact I..]. split; [exact E1|]. split; [exact E2 | discriminate].
Qed.

Lemma delegates_review pf x d op dl v nv am : hash32 (p_hash pf) -> good_deploy (p_hash pf) d -> expert_ok x (p_time pf) (d_header d) ->
  delegates d op dl v nv am ->
  type_text (d_session d) = op_text op /\ exists pre, reviews pf x (enc_tx d) (around x d (pre ++ delegation_lines op dl v nv am)).
Proof.
  intros Hh G EX [t ep l ES EO L (CD & CV & CN & CA)|w l ES EO PT (CD & CV & CN & CA)].
  - destruct (stored_delegation pf x d t ep l op dl v nv am Hh G EX ES EO L CD CV CN CA) as [T R]. split; [exact T|]. eexists. exact R.
  - destruct (module_delegation pf x d w l op dl v nv am Hh G EX ES EO PT CD CV CN CA) as [T R]. split; [exact T|]. eexists. exact R.
Qed.
Lemma delegates_views H d op dl v nv am : good_deploy H d -> delegates d op dl v nv am ->
  (viewable dl /\ exists t k, dl = KeyText t k) /\ (viewable v /\ exists t k, v = KeyText t k) /\
  (op = ORedelegate -> viewable nv /\ exists t k, nv = KeyText t k) /\ exists n, am = Motes n.
Proof.
  intros G [t ep l ES EO L (CD & CV & CN & CA)|w l ES EO PT (CD & CV & CN & CA)].
  - assert (IL : forall y, In y l -> In y (args_of (d_session d))) by (rewrite ES; auto).
    split; [eapply carried_key; eauto|]. split; [eapply carried_key; eauto|]. split; [intros E; eapply carried_key; eauto|]. eapply carried_amount; eauto.
  - assert (IL : forall y, In y (firstn (Z.to_nat (op_args op)) l) -> In y (args_of (d_session d))).
    { rewrite ES. intros y I. cbn [args_of]. rewrite <- (firstn_skipn (Z.to_nat (op_args op)) l). apply in_or_app. auto. }
    split; [eapply carried_key; eauto|]. split; [eapply carried_key; eauto|]. split; [intros E; eapply carried_key; eauto|]. eapply carried_amount; eauto.
Qed.

Lemma delegations_alike pf x a b oa da va wa ma ob db vb wb mb :
  hash32 (p_hash pf) -> good_deploy (p_hash pf) a -> good_deploy (p_hash pf) b ->
  expert_ok x (p_time pf) (d_header a) -> expert_ok x (p_time pf) (d_header b) ->
  delegates a oa da va wa ma -> delegates b ob db vb wb mb ->
  look_alike pf x (enc_tx a) (enc_tx b) ->
  same_context (p_time pf) x a b /\ oa = ob /\ da = db /\ va = vb /\ (oa = ORedelegate -> wa = wb) /\ ma = mb.
Proof.
  intros Hh Ga Gb Xa Xb Da Db AL.
  destruct (delegates_review pf x a _ _ _ _ _ Hh Ga Xa Da) as (Ta & pa & Ra). destruct (delegates_review pf x b _ _ _ _ _ Hh Gb Xb Db) as (Tb & pb & Rb).
  destruct (deploys_alike pf x a b _ _ Ga Gb Ra Rb AL) as (SC & TT & F). split; [exact SC|].
  rewrite Ta, Tb in TT. assert (oa = ob) as <- by (destruct oa, ob; try reflexivity; discriminate TT). split; [reflexivity|].
  apply Forall2_suffix in F; [|destruct oa; reflexivity]. destruct F as [_ F].
  destruct (delegates_views _ _ _ _ _ _ _ Ga Da) as ((D1 & t1 & k1 & ->) & (V1 & t2 & k2 & ->) & W1 & (n1 & ->)).
  destruct (delegates_views _ _ _ _ _ _ _ Gb Db) as ((D2 & t3 & k3 & ->) & (V2 & t4 & k4 & ->) & W2 & (n2 & ->)).
  destruct oa; cbn [delegation_lines] in F;
    inversion F as [|? ? ? ? E1 F1]; subst; inversion F1 as [|? ? ? ? E2 F2]; subst; inversion F2 as [|? ? ? ? E3 F3]; subst;
    (apply line_eq in E1; [|exact I|assumption..]); (apply line_eq in E2; [|exact I|assumption..]).
  1,2: apply line_eq in E3; [|exact I..]; repeat split; auto; discriminate.
  inversion F3 as [|? ? ? ? E4 _]; subst. destruct (W1 eq_refl) as (W1' & t5 & k5 & ->). destruct (W2 eq_refl) as (W2' & t6 & k6 & ->).
  apply line_eq in E3; [|exact I|assumption..]. apply line_eq in E4; [|exact I..]. repeat split; auto.
Qed.

(** * Contract calls *)
Lemma all_length {A} (l : list (option A)) r : all l = Some r -> List.length r = List.length l.
Proof.
  revert r. induction l as [|[b|] l IH]; intros r E; cbn [all] in E; [injection E as <-; reflexivity| |discriminate E].
  destruct (all l) as [s|]; [|discriminate E]. injection E as <-. cbn. rewrite (IH s); reflexivity.
Qed.
Lemma operation_of_inj e f o : operation_of e = Some o -> operation_of f = Some o -> e = f.
Proof.
  unfold operation_of. intros A B.
  repeat match type of A with context [list_eq_dec ?d ?y ?z] => destruct (list_eq_dec d y z) end;
  repeat match type of B with context [list_eq_dec ?d ?y ?z] => destruct (list_eq_dec d y z) end; congruence.
Qed.
Lemma target_lines_inv H tf a b p q : (forall h, (a = ByHash h \/ exists v, a = ByHashV h v) -> bytes h) -> (forall h, (b = ByHash h \/ exists v, b = ByHashV h v) -> bytes h) ->
  Forall2 (same_line H tf) (target_review true a ++ p) (target_review true b ++ q) -> same_target a b /\ Forall2 (same_line H tf) p q.
Proof.
  intros Ba Bb F. destruct a as [h|n|h v|n v], b as [k|m|k w|m w]; cbn [target_review app] in F;
    inversion F as [|? ? ? ? W F1]; subst; (apply line_eq in W; [|exact I..]); try discriminate W;
    inversion F1 as [|? ? ? ? N F2]; subst; cbn [same_target].
  - apply line_eq in N; [|exact I | apply Ba; auto | apply Bb; auto]. injection N as N. auto.
  - apply line_eq in N; [|exact I..]. injection N as N. auto.
  - inversion F2 as [|? ? ? ? V F3]; subst. apply line_eq in V; [|exact I..]. injection V as V.
    apply line_eq in N; [|exact I | apply Ba; eauto | apply Bb; eauto]. injection N as N. auto.
  - inversion F2 as [|? ? ? ? V F3]; subst. apply line_eq in V; [|exact I..]. injection V as V.
    apply line_eq in N; [|exact I..]. injection N as N. auto.
Qed.
Lemma stored_hash_bytes H d t ep l : good_deploy H d -> d_session d = Stored t ep l -> forall h, (t = ByHash h \/ exists v, t = ByHashV h v) -> bytes h.
Proof.
  intros G ES h T. pose proof (gd_bytes _ _ G) as B. change (bytes (enc_deploy d)) in B. unfold enc_deploy, enc_body in B. rewrite !bytes_app in B.
  destruct B as (_ & _ & (_ & B) & _). rewrite ES in B. cbn [enc_session] in B. apply bytes_app in B. destruct B as [B _].
  destruct T as [-> | [v ->]]; cbn [enc_target] in B; inversion B as [|? ? _ B']; subst; [exact B'|]. apply bytes_app in B'. tauto.
Qed.

Lemma calls_alike pf a b t ep l t' ep' l' la lb : hash32 (p_hash pf) ->
  good_deploy (p_hash pf) a -> good_deploy (p_hash pf) b ->
  expert_ok true (p_time pf) (d_header a) -> expert_ok true (p_time pf) (d_header b) ->
  d_session a = Stored t ep l -> d_session b = Stored t' ep' l' ->
  SD.review (p_hash pf) true a = Some la -> SD.review (p_hash pf) true b = Some lb ->
  look_alike pf true (enc_tx a) (enc_tx b) -> same_target t t' /\ ep = ep'.
Proof.
  intros Hh Ga Gb Xa Xb Ea Eb Ra Rb AL.
  pose proof (deploy_review pf true a la Hh Ga Ra Xa) as Va. pose proof (deploy_review pf true b lb Hh Gb Rb Xb) as Vb.
  unfold SD.review in Ra, Rb. destruct (session_review (p_hash pf) true (d_session a)) as [sa|] eqn:Sa; [|discriminate Ra]. destruct (session_review (p_hash pf) true (d_session b)) as [sb|] eqn:Sb; [|discriminate Rb].
  some_inj Ra. some_inj Rb. destruct (deploys_alike pf true a b sa sb Ga Gb Va Vb AL) as (_ & T & F).
  pose proof (stored_hash_bytes _ _ _ _ _ Ga Ea) as Ba. pose proof (stored_hash_bytes _ _ _ _ _ Gb Eb) as Bb.
  rewrite Ea in Sa, T. rewrite Eb in Sb, T. cbn [session_review type_text] in Sa, Sb, T.
  destruct (negb (plain_types l)); [discriminate Sa|]. destruct (negb (plain_types l')); [discriminate Sb|].
  destruct (stored_op ep l) as [o|] eqn:Oa, (stored_op ep' l') as [o'|] eqn:Ob.
  - destruct (S.len l =? op_args o); [|discriminate Sa]. destruct (S.len l' =? op_args o'); [|discriminate Sb].
    assert (o = o') as <- by (destruct o, o'; try reflexivity; discriminate T).
    unfold app2 in Sa, Sb. destruct (delegation_review o l); [|discriminate Sa]. destruct (delegation_review o l'); [|discriminate Sb]. some_inj Sa. some_inj Sb.
    apply target_lines_inv in F; auto. split; [tauto|]. unfold stored_op in Oa, Ob.
    destruct (has_delegation_args l); [|discriminate Oa]. destruct (has_delegation_args l'); [|discriminate Ob]. eapply operation_of_inj; eauto.
  - destruct o; discriminate T.
  - destruct o'; discriminate T.
  - destruct (_ && _) in Sa; [discriminate Sa|]. destruct (_ && _) in Sb; [discriminate Sb|].
    unfold app2 in Sa, Sb. destruct (generic_args_review l); [|discriminate Sa]. destruct (generic_args_review l'); [|discriminate Sb]. some_inj Sa. some_inj Sb.
    rewrite <- !app_assoc in F. apply target_lines_inv in F; auto. destruct F as [ST F]. split; [exact ST|].
    cbn [app] in F. inversion F as [|? ? ? ? E _]; subst. apply line_eq in E; [|exact I..]. congruence.
Qed.
