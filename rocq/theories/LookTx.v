(** TransactionV1s whose reviews agree. *)
From Verif Require Import Base Zxlib Crypto Utils RuntimeArg Deploy DeployUI TxV1 TxV1UI Parser BaseFacts Spec SpecText SpecDeploy SpecTx SpecLook Exec ArgsFacts ReaderFacts TextFacts Shows DeployArgs SessionFacts ReviewFacts Demo DeployCases TxFacts TxBody TxShow TxReview TxClaims LookFacts.
Import S ST SD SX SK.

Definition xsame_line (H : list Z -> list Z) (tf : Z -> option (list Z)) (a b : xline) : Prop :=
  fst a = fst b /\ exists d, xrenders H tf (snd a) d /\ xrenders H tf (snd b) d.

Lemma alike_xlines pf x da db la lb A B : xreviews pf x da (la :: A) -> xreviews pf x db (lb :: B) -> look_alike pf x da db ->
  Forall2 (xsame_line (p_hash pf) (p_time pf)) A B.
Proof.
  intros (ta & Pa & Na & Da) (tb & Pb & Nb & Db) (ta' & tb' & Pa' & Pb' & N & I).
  assert (ta' = ta) by congruence. assert (tb' = tb) by congruence. subst ta' tb'. rewrite zlen_cons in Na, Nb.
  apply nth_Forall2; [unfold zlen in *; lia|].
  intros i a b Ha Hb. pose proof (nth_cases _ _ _ Ha) as La.
  destruct (Da (Datatypes.S i) a Ha 40) as (ia & Ga & Ka & Ra). destruct (Db (Datatypes.S i) b Hb 40) as (ib & Gb & Kb & Rb).
  specialize (I (Z.of_nat (Datatypes.S i)) ltac:(unfold zlen in *; lia)). assert (ia = ib) by congruence. subst ib.
  split; [congruence|]. exists (ival ia). split; assumption.
Qed.

(** * Rendering is a function *)
Lemma ttl_text_fun n s t : ttl_text n s -> ttl_text n t -> s = t.
Proof.
  intros (d & h & m & x & nd & nh & nm & nx & E & D & Hh & M & X & Dd & Dh & Dm & Dx & ->)
         (d' & h' & m' & x' & nd' & nh' & nm' & nx' & E' & D' & Hh' & M' & X' & Dd' & Dh' & Dm' & Dx' & ->).
  assert (d = d') by lia. assert (h = h') by lia. assert (m = m') by lia. assert (x = x') by lia. subst d' h' m' x'.
  rewrite (decimal_unique _ _ _ Dd Dd'), (decimal_unique _ _ _ Dh Dh'), (decimal_unique _ _ _ Dm Dm'), (decimal_unique _ _ _ Dx Dx'). reflexivity.
Qed.
Lemma renders_fun H tf v d d' : renders H tf v d -> renders H tf v d' -> d = d'.
Proof.
  destruct v; cbn [renders]; try congruence.
  - intros (s & (a & A & ->) & ->) (t & (b & B & ->) & ->). rewrite (decimal_unique _ _ _ A B). reflexivity.
  - intros (s & A & ->) (t & B & ->). rewrite (decimal_unique _ _ _ A B). reflexivity.
  - intros (s & A & ->) (t & B & ->). rewrite (ttl_text_fun _ _ _ A B). reflexivity.
  - intros (s & A & ->) (t & B & ->). congruence.
Qed.
Lemma decimals_fun bs : forall p q, Forall2 decimal bs p -> Forall2 decimal bs q -> p = q.
Proof.
  induction bs as [|b bs IH]; intros p q P Q; inversion P; inversion Q; subst; [reflexivity|].
  f_equal; [eapply decimal_unique; eauto | auto].
Qed.
Lemma xrenders_fun H tf v d d' : xrenders H tf v d -> xrenders H tf v d' -> d = d'.
Proof.
  destruct v; cbn [xrenders]; [apply renders_fun|..].
  - intros (s & A & ->) (t & B & ->). rewrite (decimal_unique _ _ _ A B). reflexivity.
  - intros (s & A & ->) (t & B & ->). rewrite (decimal_unique _ _ _ A B). reflexivity.
  - intros (s & A & ->) (t & B & ->). rewrite (decimals_fun _ _ _ A B). reflexivity.
Qed.
(** The same lines after the first one: the same review. *)
Lemma same_xlines pf x da db la lb L : xreviews pf x da (la :: L) -> xreviews pf x db (lb :: L) -> look_alike pf x da db.
Proof.
  intros (ta & Pa & Na & Da) (tb & Pb & Nb & Db). exists ta, tb. rewrite zlen_cons in Na, Nb.
  split; [exact Pa|]. split; [exact Pb|]. split; [congruence|]. intros i Hi.
  assert (X : exists k l, i = Z.of_nat (Datatypes.S k) /\ nth_error L k = Some l).
  { destruct (nth_error L (Z.to_nat (i - 1))) as [l|] eqn:E.
    - exists (Z.to_nat (i - 1)), l. split; [lia | exact E].
    - apply nth_error_None in E. unfold zlen in Na. lia. }
  destruct X as (k & l & -> & E). destruct (Da (Datatypes.S k) l E 40) as ([ka va] & Ga & Ka & Ra). destruct (Db (Datatypes.S k) l E 40) as ([kb vb] & Gb & Kb & Rb).
  rewrite Ga, Gb. cbn [ikey ival] in *. rewrite (xrenders_fun _ _ _ _ _ Ra Rb). congruence.
Qed.

(** * The lines all transactions have *)
Lemma xline_eq H tf a b v w : kin v w -> viewable v -> viewable w -> xsame_line H tf (a, V v) (b, V w) -> v = w.
Proof. intros K V W (E & d & R1 & R2). apply (line_eq H tf a b v w K V W). split; [exact E|]. exists d. split; assumption. Qed.
Lemma grouped_eq H tf a b n m : xsame_line H tf (a, Grouped n) (b, Grouped m) -> n = m.
Proof.
  intros (_ & d & (s & A & ->) & (t & B & E)). injection E as E. apply (f_equal (filter nosp)) in E.
  destruct A as (A1 & A2 & A3 & A4), B as (B1 & B2 & B3 & B4). rewrite !group_nosp in E by auto. congruence.
Qed.
Lemma count_eq H tf a b n m : xsame_line H tf (a, Count n) (b, Count m) -> n = m.
Proof. intros (_ & d & (s & A & ->) & (t & B & E)). injection E as <-. eapply decimal_inj; eauto. Qed.
Lemma bytes_table fs f : bytes (table fs) -> In f fs -> bytes f.
Proof.
  unfold table. intros B I. apply bytes_app in B. destruct B as [_ B]. induction fs as [|g r IH]; [contradiction|].
  cbn [List.concat] in B. apply bytes_app in B. destruct B as [B1 B2]. destruct I as [->|I]; auto.
Qed.
Lemma tx_payload_bytes H t f : good_transaction H t -> In f (payload_fields (x_payload t)) -> bytes f.
Proof.
  intros G I. pose proof (gt_bytes _ _ G) as B. change (bytes (enc_transaction t)) in B.
  apply (bytes_table (payload_fields (x_payload t))); auto. eapply bytes_table; [exact B|]. cbn; auto.
Qed.
Lemma initiator_bytes H t : good_transaction H t -> bytes (init_bytes (x_initiator (x_payload t))).
Proof. intros G. eapply bytes_table; [eapply (tx_payload_bytes H t); [exact G | left; reflexivity]|]. cbn; auto. Qed.
Lemma receipt_bytes H t r : good_transaction H t -> x_pricing (x_payload t) = Prepaid r -> bytes r.
Proof.
  intros G E. assert (B : bytes (enc_pricing (x_pricing (x_payload t)))) by (apply (tx_payload_bytes H t); [exact G | do 4 right; left; reflexivity]).
  rewrite E in B. eapply bytes_table; [exact B|]. cbn; auto.
Qed.
Lemma xargs_bytes H t a : good_transaction H t -> In a (named (x_args (x_payload t))) -> bytes (a_val a).
Proof.
  intros G I. assert (B : bytes (enc_fields (x_payload t))) by (apply (tx_payload_bytes H t); [exact G | do 5 right; left; reflexivity]).
  unfold enc_fields, lv in B. rewrite !bytes_app in B. destruct B as (_ & _ & (_ & B) & _).
  destruct (x_args (x_payload t)) as [l|bs]; cbn [named enc_xargs] in *; [|contradiction].
  change (bytes ([0] ++ enc_args l)) in B. apply bytes_app in B. apply args_bytes with (l := l); tauto.
Qed.
(** Transactions whose shown parts are bytes. *)
Record displayed (t : transaction) : Prop := {
  dp_size : match x_initiator (x_payload t) with PublicKey _ k => S.len k <> 31 | AccountHash h => S.len h = 32 end;
  dp_initiator : bytes (init_bytes (x_initiator (x_payload t)));
  dp_receipt : forall r, x_pricing (x_payload t) = Prepaid r -> bytes r;
  dp_args : forall n a, x_entry (x_payload t) = Op n -> In a (named (x_args (x_payload t))) -> bytes (a_val a) }.
Lemma good_displayed H t : good_transaction H t -> displayed t.
Proof.
  intros G. constructor.
  - pose proof (gx_initiator _ (gt_payload _ _ G)) as I. unfold S.len in *. destruct (x_initiator (x_payload t)) as [g k|h]; cbn [good_initiator] in I; [|exact I].
    destruct I as [Y L]. unfold S.len in L. destruct Y as [-> | ->]; cbn in L; lia.
  - exact (initiator_bytes _ _ G).
  - intros r. exact (receipt_bytes _ _ r G).
  - intros n a _. exact (xargs_bytes _ _ a G).
Qed.
Lemma initiator_inj a b : displayed a -> displayed b -> init_bytes (x_initiator (x_payload a)) = init_bytes (x_initiator (x_payload b)) -> x_initiator (x_payload a) = x_initiator (x_payload b).
Proof.
  intros A B E. pose proof (dp_size _ A) as LA. pose proof (dp_size _ B) as LB. unfold S.len in *.
  destruct (x_initiator (x_payload a)) as [g k|h], (x_initiator (x_payload b)) as [g' k'|h']; cbn [init_bytes] in *; try congruence;
    apply (f_equal (@List.length Z)) in E; cbn [List.length] in E; lia.
Qed.

Lemma pricing_inv pf a b : displayed a -> displayed b ->
  Forall2 (xsame_line (p_hash pf) (p_time pf)) (pricing_lines (x_pricing (x_payload a))) (pricing_lines (x_pricing (x_payload b))) ->
  same_pricing (x_pricing (x_payload a)) (x_pricing (x_payload b)).
Proof.
  intros Ga Gb F. destruct (x_pricing (x_payload a)) as [m g s|g f|r] eqn:Ea, (x_pricing (x_payload b)) as [m' g' s'|g' f'|r'] eqn:Eb; cbn [pricing_lines same_pricing] in *;
    inversion F as [|? ? ? ? E1 F1]; subst; inversion F1 as [|? ? ? ? E2 _]; subst; clear F F1.
  - apply grouped_eq in E1. apply xline_eq in E2; [|exact I..]. injection E2 as E2. auto.
  - destruct E1 as (_ & d & (? & _ & ->) & X). cbn in X. discriminate X.
  - destruct E1 as (_ & d & (? & _ & ->) & X). cbn in X. discriminate X.
  - destruct E1 as (_ & d & X & (? & _ & Y)). cbn in X. congruence.
  - apply xline_eq in E2; [|exact I..]. injection E2 as E2. auto.
  - destruct E2 as (X & _). cbn in X. discriminate X.
  - destruct E1 as (_ & d & X & (? & _ & Y)). cbn in X. congruence.
  - destruct E2 as (X & _). cbn in X. discriminate X.
  - apply xline_eq in E2; [congruence | exact I | exact (dp_receipt _ Ga _ Ea) | exact (dp_receipt _ Gb _ Eb)].
Qed.

Lemma frame_inv pf x a b p q : displayed a -> displayed b ->
  Forall2 (xsame_line (p_hash pf) (p_time pf)) (tl (frame x a p)) (tl (frame x b q)) ->
  same_frame (p_time pf) x a b /\ text (entry_text (x_entry (x_payload a))) = text (entry_text (x_entry (x_payload b))) /\
  Forall2 (xsame_line (p_hash pf) (p_time pf)) p q.
Proof.
  intros Ga Gb F. unfold frame in F. cbn [app tl] in F.
  inversion F as [|? ? ? ? T F1]; subst. inversion F1 as [|? ? ? ? C F2]; subst. inversion F2 as [|? ? ? ? K F3]; subst. clear F F1 F2.
  apply xline_eq in T; [|exact I..]. apply xline_eq in C; [|exact I..]. apply xline_eq in K; [|exact I|exact (dp_initiator _ Ga)|exact (dp_initiator _ Gb)].
  injection T as T. injection C as C. injection K as K.
  apply initiator_inj in K; [|assumption..].
  destruct x; cbn [app] in F3.
  - inversion F3 as [|? ? ? ? E1 F4]; subst. inversion F4 as [|? ? ? ? E2 F5]; subst. clear F3 F4.
    assert (L2 : forall q, List.length (pricing_lines q) = 2%nat) by (intros []; reflexivity).
    rewrite !app_assoc in F5. apply Forall2_suffix in F5; [|reflexivity]. destruct F5 as [F5 F6].
    inversion F6 as [|? ? ? ? E6 _]; subst. clear F6. apply count_eq in E6.
    assert (LL : List.length p = List.length q).
    { apply Forall2_length in F5. rewrite !app_length, !L2 in F5. lia. }
    apply Forall2_suffix in F5; [|exact LL]. destruct F5 as [F5 F6].
    apply pricing_inv in F5; auto.
    destruct E1 as (_ & d & (s & S1 & ->) & (s' & S2 & X)). injection X as <-.
    apply xline_eq in E2; [|exact I..]. injection E2 as E2.
    split; [constructor; auto; intros _; repeat split; auto; congruence|]. auto.
  - rewrite !app_nil_r in F3. split; [constructor; auto; discriminate|]. auto.
Qed.

Lemma entry_text_op a b : text (entry_text a) = text (entry_text b) ->
  match a, b with Call, Call => True | Custom _, Custom _ => True | Op n, Op m => n = m | _, _ => False end.
Proof. destruct a as [| |n], b as [| |m]; try destruct n; try destruct m; cbn [entry_text native_text]; intros E; first [exact I | reflexivity | discriminate E]. Qed.

(** * Arguments of native operations *)
Definition op_arg (label name : string) (l : list arg) : option line :=
  if String.eqb name "amount" then u512_arg label name l else any_arg label name l.
Lemma op_arg_view label name l a : find_arg (text name) l = Some a ->
  op_arg label name l = match op_view name a with Some v => Some (text label, v) | None => None end.
Proof.
  intros F. unfold op_arg, op_view, u512_arg, any_arg, want, only, u512_type. rewrite F. destruct (String.eqb name "amount"); reflexivity.
Qed.
Lemma op_arg_some label name l ln0 : op_arg label name l = Some ln0 ->
  exists a v, find_arg (text name) l = Some a /\ op_view name a = Some v /\ ln0 = (text label, v).
Proof.
  intros E. destruct (find_arg (text name) l) as [a|] eqn:F.
  - rewrite (op_arg_view label name l a F) in E. destruct (op_view name a) as [v|] eqn:V; [|discriminate E]. injection E as <-. eauto.
  - unfold op_arg, u512_arg, any_arg, want in E. rewrite F in E. destruct (String.eqb _ _); discriminate E.
Qed.
Lemma all_some {A} (l : list (option A)) r o : all l = Some r -> In o l -> exists a, o = Some a /\ In a r.
Proof.
  revert r. induction l as [|[b|] l IH]; intros r E I; cbn [all] in E; [contradiction| |discriminate E].
  destruct (all l) as [s|] eqn:AL; [|discriminate E]. injection E as <-. destruct I as [<-|I]; [exists b; split; [reflexivity | left; reflexivity]|].
  destruct (IH s eq_refl I) as (a & -> & J). exists a. split; [reflexivity | right; exact J].
Qed.
Lemma some_all {A} (l : list (option A)) r a : all l = Some r -> In a r -> In (Some a) l.
Proof.
  revert r. induction l as [|[b|] l IH]; intros r E I; cbn [all] in E; [| |discriminate E].
  - injection E as <-. contradiction.
  - destruct (all l) as [s|] eqn:AL; [|discriminate E]. injection E as <-. destruct I as [<-|I]; [left; reflexivity | right; eauto].
Qed.
Ltac each S := repeat (destruct S as [S|S]; [injection S as <- <-|]); try contradiction S.
Lemma shown_elem H x n l label name : In (label, name) (op_shown x n) -> has name l = true -> In (op_arg label name l) (op_lines H x n l).
Proof.
  intros S P. destruct n, x; cbn [op_shown In] in S; each S; unfold op_arg; cbn [String.eqb Ascii.eqb Bool.eqb]; unfold op_lines; rewrite ?P;
    rewrite ?in_app_iff; cbn [In]; auto 10.
Qed.
Lemma line_of H x n l label name ln0 : In (label, name) (op_shown x n) -> In (Some ln0) (op_lines H x n l) -> fst ln0 = text label ->
  op_arg label name l = Some ln0.
Proof.
  intros S P F.
  assert (NX : forall lab nm v, any_arg lab nm l = Some ln0 \/ u512_arg lab nm l = Some ln0 \/ Some (ln lab v) = Some ln0 -> fst ln0 = text lab).
  { unfold any_arg, u512_arg, want, only. intros lab nm v [E|[E|E]].
    - destruct (find_arg _ l); [|discriminate E]. destruct (arg_view _ _); [|discriminate E]. injection E as <-. reflexivity.
    - destruct (find_arg _ l); [|discriminate E]. destruct (match a_ty a with Prim 8 => _ | _ => _ end); [|discriminate E]. destruct (amount_view _ _); [|discriminate E]. injection E as <-. reflexivity.
    - injection E as <-. reflexivity. }
  assert (VX : forall l1 l2 nm, In (Some ln0) (vector H l1 l2 nm l) -> fst ln0 = text l1 \/ fst ln0 = text l2).
  { unfold vector. intros l1 l2 nm J. destruct (find_arg _ l); [|destruct J as [J|[]]; discriminate J].
    destruct (_ && _); [|destruct J as [J|[]]; discriminate J]. destruct J as [J|[J|[]]]; injection J as <-; auto. }
  destruct n, x; cbn [op_shown In] in S; each S; unfold op_arg; cbn [String.eqb Ascii.eqb Bool.eqb]; unfold op_lines in P;
    repeat match type of P with context [has ?nm l] => destruct (has nm l) end; cbn [app In] in P;
    repeat (destruct P as [P|P]; [first [exact P | apply (fun X => NX _ _ (Words []) (or_introl X)) in P | apply (fun X => NX _ _ (Words []) (or_intror (or_introl X))) in P ]; try (rewrite P in F; discriminate F)|]);
    try contradiction P; try (apply VX in P; destruct P as [P|P]; rewrite P in F; discriminate F).
Qed.

Lemma Forall2_in_l {A B} (R : A -> B -> Prop) l m a : Forall2 R l m -> In a l -> exists b, In b m /\ R a b.
Proof.
  induction 1 as [|x y l m Hxy F IH]; intros I; [contradiction|]. destruct I as [<-|I]; [exists y; split; [left; reflexivity | exact Hxy]|].
  destruct (IH I) as (b & J & Q). exists b. split; [right; exact J | exact Q].
Qed.
Lemma Forall2_flip_in {A B} (R : A -> B -> Prop) l m b : Forall2 R l m -> In b m -> exists a, In a l /\ R a b.
Proof.
  induction 1 as [|x y l m Hxy F IH]; intros I; [contradiction|]. destruct I as [<-|I]; [exists x; split; [left; reflexivity | exact Hxy]|].
  destruct (IH I) as (a & J & Q). exists a. split; [right; exact J | exact Q].
Qed.
Lemma lift_same H tf ra rb : Forall2 (xsame_line H tf) (lift_lines ra) (lift_lines rb) -> Forall2 (same_line H tf) ra rb.
Proof.
  revert rb. induction ra as [|[ka va] ra IH]; intros [|[kb vb] rb] F; inversion F; subst; constructor; auto.
Qed.
Lemma has_find name l : has name l = true <-> exists a, find_arg (text name) l = Some a.
Proof. unfold has. destruct (find_arg (text name) l) as [a|]; split; intros X; try discriminate; eauto. destruct X; discriminate. Qed.
Lemma op_viewable a name v : bytes (a_val a) -> op_view name a = Some v -> viewable v.
Proof.
  intros B E. unfold op_view in E. destruct (String.eqb name "amount"); [|eapply arg_viewable; eauto].
  destruct (u512_type (a_ty a)); [|discriminate E]. destruct (amount_motes _ _ _ E) as (n & ->). exact I.
Qed.

Lemma op_same H tf x n la lb ra rb :
  (forall a, In a la -> bytes (a_val a)) -> (forall a, In a lb -> bytes (a_val a)) ->
  all (op_lines H x n la) = Some ra -> all (op_lines H x n lb) = Some rb ->
  Forall2 (same_line H tf) ra rb -> same_args x n la lb.
Proof.
  intros Ba Bb Aa Ab F label name S.
  assert (H1 : has name la = true -> has name lb = true).
  { intros P. destruct (all_some _ _ _ Aa (shown_elem H x n la _ _ S P)) as (l1 & E1 & I1). destruct (op_arg_some _ _ _ _ E1) as (a & v & _ & _ & ->).
    destruct (Forall2_in_l _ _ _ _ F I1) as (l2 & I2 & L & _). apply has_find.
    pose proof (line_of H x n lb label name l2 S (some_all _ _ _ Ab I2) (eq_sym L)) as E2. destruct (op_arg_some _ _ _ _ E2) as (b & w & Fb & _). eauto. }
  assert (H2 : has name lb = true -> has name la = true).
  { intros P. destruct (all_some _ _ _ Ab (shown_elem H x n lb _ _ S P)) as (l1 & E1 & I1). destruct (op_arg_some _ _ _ _ E1) as (a & v & _ & _ & ->).
    destruct (Forall2_flip_in _ _ _ _ F I1) as (l2 & I2 & L & _). apply has_find.
    pose proof (line_of H x n la label name l2 S (some_all _ _ _ Aa I2) L) as E2. destruct (op_arg_some _ _ _ _ E2) as (b & w & Fb & _). eauto. }
  split; [destruct (has name la), (has name lb); auto; symmetry; auto|].
  intros a b v w Fa Fb Va Vb K.
  assert (P : has name la = true) by (apply has_find; eauto).
  destruct (all_some _ _ _ Aa (shown_elem H x n la _ _ S P)) as (l1 & E1 & I1). rewrite (op_arg_view _ _ _ _ Fa), Va in E1. injection E1 as <-.
  destruct (Forall2_in_l _ _ _ _ F I1) as (l2 & I2 & SL).
  pose proof (line_of H x n lb label name l2 S (some_all _ _ _ Ab I2) (eq_sym (proj1 SL))) as E2. rewrite (op_arg_view _ _ _ _ Fb), Vb in E2. injection E2 as <-.
  apply (line_eq H tf (text label) (text label) v w); auto.
  - apply (op_viewable a name); auto. apply Ba. apply (find_arg_in _ _ _ Fa).
  - apply (op_viewable b name); auto. apply Bb. apply (find_arg_in _ _ _ Fb).
Qed.

(** the hash line of a vector *)
Definition vector_label (n : native) : string := match n with NAddReservations => "Rsrv hash" | _ => "Dlgtrs hash" end.
Lemma vector_line H x n l name a r : all (op_lines H x n l) = Some r -> op_vector n = Some name -> find_arg (text name) l = Some a ->
  In (ln (vector_label n) (Hex (H (a_val a)))) r.
Proof.
  intros A O F. destruct n; try discriminate O; injection O as <-; cbn [op_lines] in A; unfold vector in A; rewrite F in A.
  - destruct ((4 <=? S.len (a_val a)) && (value (firstn 4 (a_val a)) <? 256)); [|discriminate A]. cbn [all] in A. injection A as <-. cbn; auto.
  - destruct ((4 <=? S.len (a_val a)) && (value (firstn 4 (a_val a)) <? 256)); cbn [all] in A; destruct (any_arg _ _ l); try discriminate A. injection A as <-. cbn; auto.
Qed.
Lemma vector_only H x n l name a ln0 : In (Some ln0) (op_lines H x n l) -> op_vector n = Some name -> find_arg (text name) l = Some a ->
  fst ln0 = text (vector_label n) -> ln0 = ln (vector_label n) (Hex (H (a_val a))).
Proof.
  intros P O F L. destruct n; try discriminate O; injection O as <-; cbn [op_lines In] in P; unfold vector in P; rewrite F in P.
  - destruct (_ && _); cbn [In] in P; [|destruct P as [P|[]]; discriminate P].
    destruct P as [P|[P|[]]]; injection P as <-; [discriminate L | reflexivity].
  - destruct P as [P|P]; [apply (op_arg_some "Validator" "validator") in P; destruct P as (? & ? & _ & _ & ->); discriminate L|].
    destruct (_ && _); cbn [In] in P; [|destruct P as [P|[]]; discriminate P].
    destruct P as [P|[P|[]]]; injection P as <-; [discriminate L | reflexivity].
Qed.
Lemma vector_same H tf x n la lb ra rb : hash32 H ->
  all (op_lines H x n la) = Some ra -> all (op_lines H x n lb) = Some rb -> Forall2 (same_line H tf) ra rb -> same_vector H n la lb.
Proof.
  intros Hh Aa Ab F name a b O Fa Fb. pose proof (vector_line _ _ _ _ _ _ _ Aa O Fa) as I1.
  destruct (Forall2_in_l _ _ _ _ F I1) as (l2 & I2 & SL).
  assert (E2 : l2 = ln (vector_label n) (Hex (H (a_val b)))) by (eapply vector_only; eauto using some_all; exact (eq_sym (proj1 SL))). subst l2.
  apply line_eq in SL; [congruence | exact I | apply Hh..].
Qed.

(** * Contracts *)
Lemma custom_same H tf x i j e f aa ab ra rb : hash32 H ->
  custom_review H x i e aa = Some ra -> custom_review H x j f ab = Some rb -> Forall2 (xsame_line H tf) ra rb ->
  e = f /\ H (arg_bytes aa) = H (arg_bytes ab) /\ same_contract x i j.
Proof.
  intros Hh Ra Rb F.
  assert (TAIL : forall p q, ra = p ++ [xl "Entry-point" (Text e); xl "Args hash" (Hex (H (arg_bytes aa)))] ->
                             rb = q ++ [xl "Entry-point" (Text f); xl "Args hash" (Hex (H (arg_bytes ab)))] ->
                 (e = f /\ H (arg_bytes aa) = H (arg_bytes ab)) /\ Forall2 (xsame_line H tf) p q).
  { intros p q -> ->. apply Forall2_suffix in F; [|reflexivity]. destruct F as [F1 F2]. split; [|exact F1].
    inversion F2 as [|? ? ? ? E1 F3]; subst. inversion F3 as [|? ? ? ? E2 _]; subst.
    apply xline_eq in E1; [|exact I..]. apply xline_eq in E2; [|exact I | apply Hh..]. split; congruence. }
  assert (SD : forall a b h k, xsame_line H tf (a, ByteDigits h) (b, ByteDigits k) -> same_digits h k).
  { intros a b h k (_ & d & (p & P & ->) & (q & Q & E)). injection E as E. exists p, q. auto. }
  assert (WD : forall a b s t, xsame_line H tf (xl a (Words s)) (xl b (Words t)) -> s = t) by (intros a b s t X; apply xline_eq in X; [congruence | exact I..]).
  assert (NM : forall a b s t, xsame_line H tf (xl a (Text s)) (xl b (Text t)) -> s = t) by (intros a b s t X; apply xline_eq in X; [congruence | exact I..]).
  assert (NU : forall a b s t, xsame_line H tf (xl a (Number s)) (xl b (Number t)) -> s = t) by (intros a b s t X; apply xline_eq in X; [congruence | exact I..]).
  assert (PRE : forall k y g l r, custom_review H x k y g = Some r -> l = [xl "Entry-point" (Text y); xl "Args hash" (Hex (H (arg_bytes g)))] ->
     exists w v r', r = (xl "Execution" (Words (text w)) :: v :: r') ++ l /\
       match k with
       | ByHash h => w = "by-hash"%string /\ v = (text "Address", ByteDigits h) /\ r' = []
       | ByName n => w = "by-name"%string /\ v = xl "Name" (Text n) /\ r' = []
       | ByHashV h o => w = "by-hash-versioned"%string /\ v = (text "Address", ByteDigits h) /\
           if x then exists n, o = Some n /\ r' = [xl "Version" (Number n)] else r' = []
       | ByNameV m o => w = "by-name-versioned"%string /\ v = xl "Name" (Text m) /\
           if x then exists n, o = Some n /\ r' = [xl "Version" (Number n)] else r' = []
       end).
  { intros k y g l r E ->. unfold custom_review in E. destruct k as [h|n|h o|n o].
    - injection E as <-. eexists "by-hash"%string, _, []. split; [reflexivity | auto].
    - injection E as <-. eexists "by-name"%string, _, []. split; [reflexivity | auto].
    - destruct x.
      + destruct o as [m|]; [|discriminate E]. destruct (m =? _); [discriminate E|]. injection E as <-. eexists "by-hash-versioned"%string, _, [_]. split; [reflexivity | eauto].
      + injection E as <-. eexists "by-hash-versioned"%string, _, []. split; [reflexivity | auto].
    - destruct x.
      + destruct o as [m|]; [|discriminate E]. destruct (m =? _); [discriminate E|]. injection E as <-. eexists "by-name-versioned"%string, _, [_]. split; [reflexivity | eauto].
      + injection E as <-. eexists "by-name-versioned"%string, _, []. split; [reflexivity | auto]. }
  destruct (PRE i e aa _ ra Ra eq_refl) as (w1 & v1 & r1 & E1 & X1). destruct (PRE j f ab _ rb Rb eq_refl) as (w2 & v2 & r2 & E2 & X2).
  destruct (TAIL _ _ E1 E2) as ((Ee & Ea) & F1). clear TAIL PRE E1 E2. split; [exact Ee|]. split; [exact Ea|].
  inversion F1 as [|? ? ? ? W F2]; subst. inversion F2 as [|? ? ? ? V F3]; subst. apply WD in W.
  destruct i, j; destruct X1 as (-> & -> & X1), X2 as (-> & -> & X2); try discriminate W; cbn [same_contract].
  - eapply SD; eauto.
  - eapply NM; eauto.
  - split; [eapply SD; eauto|]. intros ->. destruct X1 as (vn & -> & ->), X2 as (vm & -> & ->). inversion F3 as [|? ? ? ? N _]; subst. apply NU in N. congruence.
  - split; [eapply NM; eauto|]. intros ->. destruct X1 as (vn & -> & ->), X2 as (vm & -> & ->). inversion F3 as [|? ? ? ? N _]; subst. apply NU in N. congruence.
Qed.

Lemma frame_cons x t s : exists r, frame x t s = xl "Txn hash" (Hex (x_hash t)) :: r /\ tl (frame x t s) = r.
Proof. eexists. split; reflexivity. Qed.
Lemma frames_alike pf x da db a b p q : displayed a -> displayed b ->
  xreviews pf x da (frame x a p) -> xreviews pf x db (frame x b q) -> look_alike pf x da db ->
  same_frame (p_time pf) x a b /\ text (entry_text (x_entry (x_payload a))) = text (entry_text (x_entry (x_payload b))) /\
  Forall2 (xsame_line (p_hash pf) (p_time pf)) p q.
Proof.
  intros Ga Gb Ra Rb AL. apply frame_inv; auto.
  destruct (frame_cons x a p) as (ra & Ea & ->). destruct (frame_cons x b q) as (rb & Eb & ->). rewrite Ea in Ra. rewrite Eb in Rb.
  eapply alike_xlines; eauto.
Qed.

Lemma reviews_alike pf x da db a b la lb : hash32 (p_hash pf) -> displayed a -> displayed b ->
  review (p_hash pf) x a = Some la -> review (p_hash pf) x b = Some lb -> xreviews pf x da la -> xreviews pf x db lb -> look_alike pf x da db ->
  same_frame (p_time pf) x a b /\ same_deed (p_hash pf) x (x_payload a) (x_payload b).
Proof.
  intros Hh Ga Gb Ra Rb Va Vb AL.
  unfold review in Ra, Rb. destruct (body_review (p_hash pf) x (x_payload a)) as [sa|] eqn:Sa; [|discriminate Ra]. destruct (body_review (p_hash pf) x (x_payload b)) as [sb|] eqn:Sb; [|discriminate Rb].
  some_inj Ra. some_inj Rb. destruct (frames_alike pf x da db a b sa sb Ga Gb Va Vb AL) as (SF & T & F). split; [exact SF|].
  apply entry_text_op in T. unfold same_deed. unfold body_review in Sa, Sb.
  pose proof (dp_args _ Ga) as Aa. pose proof (dp_args _ Gb) as Ab.
  destruct (x_entry (x_payload a)) as [|e|n], (x_entry (x_payload b)) as [|f|m]; try contradiction T; try discriminate Sa.
  - destruct (x_target (x_payload a)) as [|i r|]; try discriminate Sa. destruct (x_target (x_payload b)) as [|j r'|]; try discriminate Sb.
    destruct (custom_same _ _ _ _ _ _ _ _ _ _ _ Hh Sa Sb F) as (E1 & E2 & E3). auto.
  - subst m. split; [reflexivity|]. specialize (fun y => Aa n y eq_refl) as Aa'. specialize (fun y => Ab n y eq_refl) as Ab'.
    destruct (x_target (x_payload a)); try discriminate Sa. destruct (x_target (x_payload b)); try discriminate Sb.
    destruct (x_args (x_payload a)) as [ka|]; [|discriminate Sa]. destruct (x_args (x_payload b)) as [kb|]; [|discriminate Sb].
    unfold op_review in Sa, Sb. destruct (_ && _) in Sa; [|discriminate Sa]. destruct (_ && _) in Sb; [|discriminate Sb].
    destruct (all (op_lines (p_hash pf) x n ka)) as [ra|] eqn:Ea; [|discriminate Sa]. destruct (all (op_lines (p_hash pf) x n kb)) as [rb|] eqn:Eb; [|discriminate Sb].
    some_inj Sa. some_inj Sb. apply lift_same in F. cbn [named] in *. split; [eapply op_same; eauto | eapply vector_same; eauto].
Qed.
Lemma v1s_alike pf x a b la lb : hash32 (p_hash pf) ->
  good_transaction (p_hash pf) a -> good_transaction (p_hash pf) b ->
  xexpert_ok x (p_time pf) (x_payload a) -> xexpert_ok x (p_time pf) (x_payload b) ->
  before_args a < 256 -> before_args b < 256 ->
  review (p_hash pf) x a = Some la -> review (p_hash pf) x b = Some lb ->
  look_alike pf x (enc_v1 a) (enc_v1 b) ->
  same_frame (p_time pf) x a b /\ same_deed (p_hash pf) x (x_payload a) (x_payload b).
Proof.
  intros Hh Ga Gb Xa Xb Ba Bb Ra Rb. apply reviews_alike with (la := la) (lb := lb); auto using (good_displayed (p_hash pf)); eapply v1_review; eauto.
Qed.

(** * Differences that leave no trace *)
(** Transactions that differ in nothing shown. *)
Lemma bare_alike pf x a b la lb : hash32 (p_hash pf) ->
  good_transaction (p_hash pf) a -> good_transaction (p_hash pf) b ->
  xexpert_ok x (p_time pf) (x_payload a) -> xexpert_ok x (p_time pf) (x_payload b) ->
  before_args a < 256 -> before_args b < 256 ->
  review (p_hash pf) x a = Some la \/ bare_review (p_hash pf) x a = Some la ->
  review (p_hash pf) x b = Some lb \/ bare_review (p_hash pf) x b = Some lb ->
  tl la = tl lb -> look_alike pf x (enc_v1 a) (enc_v1 b).
Proof.
  intros Hh Ga Gb Xa Xb Ba Bb Ra Rb T.
  assert (Va : xreviews pf x (enc_v1 a) la) by (destruct Ra; [eapply v1_review | eapply v1_bare]; eauto).
  assert (Vb : xreviews pf x (enc_v1 b) lb) by (destruct Rb; [eapply v1_review | eapply v1_bare]; eauto).
  assert (Ca : la = xl "Txn hash" (Hex (x_hash a)) :: tl la).
  { unfold review, bare_review in Ra. destruct (body_review _ _ _), (bare_body _ _ _); destruct Ra as [Ra|Ra]; try discriminate Ra; some_inj Ra; reflexivity. }
  assert (Cb : lb = xl "Txn hash" (Hex (x_hash b)) :: tl lb).
  { unfold review, bare_review in Rb. destruct (body_review _ _ _), (bare_body _ _ _); destruct Rb as [Rb|Rb]; try discriminate Rb; some_inj Rb; reflexivity. }
  rewrite Ca in Va. rewrite Cb, <- T in Vb. eapply same_xlines; eauto.
Qed.

(** * The lines before the body, for every accepted transaction *)
Lemma top_shown pf x t v i l : hash32 (p_hash pf) -> good_transaction (p_hash pf) t -> xexpert_ok x (p_time pf) (x_payload t) ->
  tx_parse pf x (enc_v1 t) = Ret v -> Z.of_nat i < getNumItems x v -> nth_error (top_lines x t) i = Some l ->
  forall kl, exists it, tx_getItem pf x kl (enc_v1 t) v (Z.of_nat i) = Ret it /\ xshows (p_hash pf) (p_time pf) l it.
Proof.
  intros Hh G EX P N Hi kl. apply parse_of_accept in P. destruct (v1_parsed pf Hh x t G v P) as [-> _].
  destruct (head_lines (ctx_of pf x false kl (enc_transaction t) (zlen (enc_transaction t))) t i l 0 (v1_env pf x kl t Hh G) EX N Hi) as (it & o & E & S).
  exists it. split; [|exact S]. pose proof (v1_nonempty pf t G) as NE. unfold tx_getItem, enc_v1. rewrite zlen_cons, u16_small by lia.
  replace (1 + zlen (enc_transaction t) - 1) with (zlen (enc_transaction t)) by lia. cbn [getItem]. cbn [expert ctx_of] in E. rewrite E. reflexivity.
Qed.

Lemma num_items_top pf x t v : hash32 (p_hash pf) -> good_transaction (p_hash pf) t -> tx_parse pf x (enc_v1 t) = Ret v ->
  item_count x (x_payload t) < 256 -> (if x then 9 else 4) <= getNumItems x v.
Proof.
  intros Hh G P L. rewrite (count_small pf Hh x t G v P L). unfold item_count.
  assert (V : forall i, 0 <= version_lines x i).
  { intros i. unfold version_lines. destruct i as [| |? [?|]|? [?|]]; try lia; destruct (x && _); lia. }
  pose proof (zlen_nonneg (named (x_args (x_payload t)))) as Z0. change (zlen (named (x_args (x_payload t)))) with (S.len (named (x_args (x_payload t)))) in Z0.
  assert (A : 0 <= match x_target (x_payload t) with XStored i _ => 3 + version_lines x i | _ => 0 end) by (destruct (x_target (x_payload t)) as [|i ?|]; try lia; specialize (V i); lia).
  destruct (x_entry (x_payload t)) as [| |[]]; destruct x; lia.
Qed.

(** Accepted transactions that look alike agree in these lines. *)
Lemma tops_alike pf x a b : hash32 (p_hash pf) -> good_transaction (p_hash pf) a -> good_transaction (p_hash pf) b ->
  xexpert_ok x (p_time pf) (x_payload a) -> xexpert_ok x (p_time pf) (x_payload b) ->
  item_count x (x_payload a) < 256 -> item_count x (x_payload b) < 256 ->
  look_alike pf x (enc_v1 a) (enc_v1 b) ->
  Forall2 (xsame_line (p_hash pf) (p_time pf)) (tl (top_lines x a)) (tl (top_lines x b)).
Proof.
  intros Hh Ga Gb Xa Xb Ca Cb (ta & tb & Pa & Pb & N & I).
  pose proof (num_items_top pf x a ta Hh Ga Pa Ca) as Na. pose proof (num_items_top pf x b tb Hh Gb Pb Cb) as Nb.
  destruct (top_split x a []) as (_ & _ & _ & La). destruct (top_split x b []) as (_ & _ & _ & Lb).
  assert (LE : forall (l : list xline), List.length (tl l) = (List.length l - 1)%nat) by (intros []; cbn; lia).
  assert (NT : forall (l : list xline) i, nth_error (tl l) i = nth_error l (Datatypes.S i)) by (intros [|y l] i; [destruct i; reflexivity | reflexivity]).
  apply nth_Forall2; [rewrite !LE; lia|]. intros i la lb Ha Hb. rewrite NT in Ha, Hb.
  pose proof (nth_cases _ _ _ Ha) as Li. rewrite La in Li.
  assert (Z8 : Z.of_nat (Datatypes.S i) < (if x then 9 else 4)) by (destruct x; lia).
  destruct (top_shown pf x a ta (Datatypes.S i) la Hh Ga Xa Pa ltac:(lia) Ha 40) as (ia & Ea & Ka & Ra).
  destruct (top_shown pf x b tb (Datatypes.S i) lb Hh Gb Xb Pb ltac:(lia) Hb 40) as (ib & Eb & Kb & Rb).
  specialize (I (Z.of_nat (Datatypes.S i)) ltac:(lia)). assert (ia = ib) by congruence. subst ib.
  split; [congruence|]. exists (ival ia). auto.
Qed.

Lemma pricing_alike pf a b : hash32 (p_hash pf) -> good_transaction (p_hash pf) a -> good_transaction (p_hash pf) b ->
  xexpert_ok true (p_time pf) (x_payload a) -> xexpert_ok true (p_time pf) (x_payload b) ->
  item_count true (x_payload a) < 256 -> item_count true (x_payload b) < 256 ->
  look_alike pf true (enc_v1 a) (enc_v1 b) ->
  same_pricing (x_pricing (x_payload a)) (x_pricing (x_payload b)).
Proof.
  intros Hh Ga Gb Xa Xb Ca Cb AL. pose proof (tops_alike pf true a b Hh Ga Gb Xa Xb Ca Cb AL) as F.
  assert (P2 : forall q, exists y z, pricing_lines q = [y; z]) by (intros []; cbn; eauto).
  apply (pricing_inv pf); try (eapply good_displayed; eassumption). unfold top_lines, frame in F. cbn [app firstn tl] in F.
  destruct (P2 (x_pricing (x_payload a))) as (y & z & Ea). destruct (P2 (x_pricing (x_payload b))) as (y' & z' & Eb).
  rewrite Ea, Eb in F |- *. cbn [app firstn tl] in F.
  do 5 (inversion F as [|? ? ? ? _ F0]; subst; clear F; rename F0 into F). exact F.
Qed.

(** * Which transactions can be shown as a native operation *)
Lemma sanity_kind a ep tt_ e o o' : check_sanity_native_transfer a ep tt_ e o = (Ret tt, o') ->
  ep = EntryPointCustom \/ tt_ = TargetNative \/ tt_ = TargetSession.
Proof.
  unfold check_sanity_native_transfer. rewrite step_get_off. cbv zeta. intros E. apply bind_inv in E. destruct E as (u & o1 & C & _). apply check_inv in C.
  destruct C as [C _]. lia.
Qed.
Lemma entry_kind a tt_ e o r o' : read_entry_point a tt_ e o = (Ret r, o') ->
  fst (fst (fst r)) = EntryPointCustom \/ tt_ = TargetNative \/ tt_ = TargetSession.
Proof.
  unfold read_entry_point. intros E. repeat (apply bind_inv in E; destruct E as (? & ? & ? & E)).
  apply ret_inv in E. destruct E as [-> _]. cbn [fst].
  match goal with X : check_sanity_native_transfer _ _ _ _ _ = (Ret ?u, _) |- _ => destruct u; apply sanity_kind in X; exact X end.
Qed.
Lemma body_kind e o r o' : read_txV1_body e o = (Ret r, o') ->
  fst (fst (fst (snd r))) = EntryPointCustom \/ ttype (fst (snd (fst r))) = TargetNative \/ ttype (fst (snd (fst r))) = TargetSession.
Proof.
  unfold read_txV1_body. intros E. repeat (apply bind_inv in E; destruct E as (? & ? & ? & E)).
  apply ret_inv in E. destruct E as [-> _]. cbn [fst snd].
  match goal with X : read_entry_point _ _ _ _ = _ |- _ => apply entry_kind in X; exact X end.
Qed.
Lemma v1_kind e o v o' : parser_read_transactionV1 e o = (Ret v, o') ->
  entry_point_type v = EntryPointCustom \/ ttype (ttarget v) = TargetNative \/ ttype (ttarget v) = TargetSession.
Proof.
  unfold parser_read_transactionV1. intros E. cbv zeta in E. repeat (apply bind_inv in E; destruct E as (? & ? & ? & E)).
  match goal with X : read_txV1_body _ _ = (Ret ?b, _) |- _ => apply body_kind in X; destruct b as [[aa [tg nt]] [[[ep p] l] ne]] end.
  apply ret_inv in E. destruct E as [-> _]. cbn [entry_point_type ttarget fst snd] in *. assumption.
Qed.
Lemma accepted_kind pf x data v : tx_parse pf x data = Ret (TV1 v) ->
  entry_point_type v = EntryPointCustom \/ ttype (ttarget v) = TargetNative \/ ttype (ttarget v) = TargetSession.
Proof.
  intros P. apply parse_of_accept in P. unfold parser_parse in P. destruct (u16 (zlen data) =? 0); [discriminate P|].
  destruct data as [|k r]; [discriminate P|]. destruct (u16 (zlen (k :: r)) =? 1); [discriminate P|].
  destruct (parse_content k _ 0) as [[w|c|u] o] eqn:E; cbn [fst] in P; try discriminate P. injection P as ->.
  unfold parse_content in E. destruct (k =? content_Deploy).
  - apply bind_inv in E. destruct E as (d & o1 & _ & E). discriminate E.
  - destruct (k =? content_TransactionV1); [|discriminate E]. apply bind_inv in E. destruct E as (d & o1 & E1 & E). injection E as <- _. eapply v1_kind; eauto.
Qed.

(** * Changes that leave no trace *)
Section Unseen.
Variables (pf : platform) (x : bool) (a b : transaction).
Hypothesis Hh : hash32 (p_hash pf).
Hypotheses (Ga : good_transaction (p_hash pf) a) (Gb : good_transaction (p_hash pf) b).
Hypotheses (Xa : xexpert_ok x (p_time pf) (x_payload a)) (Xb : xexpert_ok x (p_time pf) (x_payload b)).
Hypotheses (Ba : before_args a < 256) (Bb : before_args b < 256).

Lemma same_pricing_lines p q : same_pricing p q -> pricing_lines p = pricing_lines q.
Proof. destruct p, q; cbn [same_pricing pricing_lines]; try contradiction; intros; try congruence. destruct H as [-> ->]. reflexivity. Qed.

Lemma pricing_unseen q la : review (p_hash pf) x a = Some la -> x_payload b = reprice (x_payload a) q ->
  (x = true -> same_pricing (x_pricing (x_payload a)) q /\ S.len (x_approvals a) = S.len (x_approvals b)) ->
  look_alike pf x (enc_v1 a) (enc_v1 b).
Proof.
  intros R E S. unfold review in R. destruct (body_review (p_hash pf) x (x_payload a)) as [s|] eqn:B; [|discriminate R]. some_inj R.
  apply (bare_alike pf x a b (frame x a s) (frame x b s)); auto.
  - left. unfold review. rewrite B. reflexivity.
  - left. unfold review. assert (body_review (p_hash pf) x (x_payload b) = Some s) as -> by (rewrite E; exact B). reflexivity.
  - unfold frame. cbn [tl app]. rewrite E. cbn [reprice x_entry x_chain x_initiator x_time x_ttl x_pricing]. destruct x; [|reflexivity].
    destruct (S eq_refl) as [S1 S2]. rewrite (same_pricing_lines _ _ S1), S2. reflexivity.
Qed.

Lemma header_frame s : same_header a b -> text (entry_text (x_entry (x_payload a))) = text (entry_text (x_entry (x_payload b))) -> tl (frame x a s) = tl (frame x b s).
Proof. intros [E1 E2 E3 E4 E5 E6] T. unfold frame. cbn [tl app]. rewrite T, E1, E2, E3, E4, E5, E6. reflexivity. Qed.

(** Module code shown as a native operation. *)
Lemma code_as_native n la : review (p_hash pf) x a = Some la ->
  x_entry (x_payload a) = Op n -> x_entry (x_payload b) = Op n -> x_args (x_payload a) = x_args (x_payload b) ->
  session_target (x_target (x_payload b)) -> same_header a b -> look_alike pf x (enc_v1 a) (enc_v1 b).
Proof.
  intros R Ea Eb A (u & r & w & T) S. unfold review in R. destruct (body_review (p_hash pf) x (x_payload a)) as [s|] eqn:B; [|discriminate R]. some_inj R.
  apply (bare_alike pf x a b (frame x a s) (frame x b s)); auto.
  - left. unfold review. rewrite B. reflexivity.
  - right. unfold bare_review, bare_body. rewrite T, Eb, <- A. unfold body_review in B. rewrite Ea in B.
    destruct (x_target (x_payload a)); try discriminate B. rewrite B. reflexivity.
  - apply header_frame; auto. rewrite Ea, Eb. reflexivity.
Qed.

(** Module code run by the entry point Call: neither code nor arguments show. *)
Lemma call_unseen : session_target (x_target (x_payload a)) -> session_target (x_target (x_payload b)) ->
  x_entry (x_payload a) = Call -> x_entry (x_payload b) = Call -> same_header a b -> look_alike pf x (enc_v1 a) (enc_v1 b).
Proof.
  intros (u & r & w & T) (u' & r' & w' & T') Ea Eb S.
  apply (bare_alike pf x a b (frame x a []) (frame x b [])); auto.
  - right. unfold bare_review, bare_body. rewrite T, Ea. reflexivity.
  - right. unfold bare_review, bare_body. rewrite T', Eb. reflexivity.
  - apply header_frame; auto. rewrite Ea, Eb. reflexivity.
Qed.
(** With a custom entry point, neither code nor entry point show. *)
Lemma custom_unseen e f : session_target (x_target (x_payload a)) -> session_target (x_target (x_payload b)) ->
  x_entry (x_payload a) = Custom e -> x_entry (x_payload b) = Custom f -> x_args (x_payload a) = x_args (x_payload b) ->
  same_header a b -> look_alike pf x (enc_v1 a) (enc_v1 b).
Proof.
  intros (u & r & w & T) (u' & r' & w' & T') Ea Eb A S.
  apply (bare_alike pf x a b (frame x a [xl "Args hash" (Hex (p_hash pf (arg_bytes (x_args (x_payload a)))))])
    (frame x b [xl "Args hash" (Hex (p_hash pf (arg_bytes (x_args (x_payload a)))))])); auto.
  - right. unfold bare_review, bare_body. rewrite T, Ea. reflexivity.
  - right. unfold bare_review, bare_body. rewrite T', Eb, A. reflexivity.
  - apply header_frame; auto. rewrite Ea, Eb. reflexivity.
Qed.
End Unseen.

(** * Contract calls *)
Lemma v1_calls_alike pf x a b i r e j s f la lb : hash32 (p_hash pf) ->
  good_transaction (p_hash pf) a -> good_transaction (p_hash pf) b ->
  xexpert_ok x (p_time pf) (x_payload a) -> xexpert_ok x (p_time pf) (x_payload b) ->
  before_args a < 256 -> before_args b < 256 ->
  x_target (x_payload a) = XStored i r -> x_entry (x_payload a) = Custom e ->
  x_target (x_payload b) = XStored j s -> x_entry (x_payload b) = Custom f ->
  review (p_hash pf) x a = Some la -> review (p_hash pf) x b = Some lb ->
  look_alike pf x (enc_v1 a) (enc_v1 b) -> same_contract x i j /\ e = f.
Proof.
  intros Hh Ga Gb Xa Xb Ba Bb Ta Ea Tb Eb Ra Rb AL. destruct (v1s_alike pf x a b la lb Hh Ga Gb Xa Xb Ba Bb Ra Rb AL) as [_ D].
  unfold same_deed in D. rewrite Ea, Eb, Ta, Tb in D. tauto.
Qed.

(** * An argument determines what is shown for it *)
Lemma display_local ty val v e e' o o' : wf e -> wf e' -> hash e = hash e' -> timefmt e = timefmt e' ->
  at_ e o (val ++ enc_type ty) -> at_ e' o' (val ++ enc_type ty) -> arg_view ty val = Some v ->
  exists d, fst (display_runtimeArg (tag ty) (zlen val) e o) = Ret d /\ fst (display_runtimeArg (tag ty) (zlen val) e' o') = Ret d.
Proof.
  intros W W' Eh Et A A' V. destruct (display_arg_at ty val v e o W A V) as (d & o1 & D & R). destruct (display_arg_at ty val v e' o' W' A' V) as (d' & o2 & D' & R').
  rewrite <- Eh, <- Et in R'. rewrite (renders_fun _ _ _ _ _ R' R) in D'. exists d. rewrite D, D'. split; reflexivity.
Qed.
Lemma op_item pf x t n l la label name a w : hash32 (p_hash pf) -> good_transaction (p_hash pf) t ->
  xexpert_ok x (p_time pf) (x_payload t) -> before_args t < 256 -> review (p_hash pf) x t = Some la ->
  x_entry (x_payload t) = Op n -> x_args (x_payload t) = Named l ->
  In (label, name) (op_shown x n) -> find_arg (text name) l = Some a -> op_view name a = Some w ->
  exists v i it, tx_parse pf x (enc_v1 t) = Ret v /\ 0 <= i < getNumItems x v /\ tx_getItem pf x 40 (enc_v1 t) v i = Ret it /\
    ikey it = text label /\ renders (p_hash pf) (p_time pf) w (ival it).
Proof.
  intros Hh G X B R E A S F W. destruct (v1_review pf x t la Hh G R X B) as (v & P & N & D).
  unfold review, body_review in R. rewrite E, A in R. destruct (x_target (x_payload t)); try discriminate R.
  unfold op_review in R. destruct (_ && _); [|discriminate R]. destruct (all (op_lines (p_hash pf) x n l)) as [r|] eqn:AL; [|discriminate R]. some_inj R.
  assert (P1 : has name l = true) by (apply has_find; eauto).
  destruct (all_some _ _ _ AL (shown_elem (p_hash pf) x n l _ _ S P1)) as (l1 & E1 & I1). rewrite (op_arg_view _ _ _ _ F), W in E1. injection E1 as <-.
  assert (I2 : @In xline (text label, V w) (frame x t (lift_lines r))).
  { unfold frame. apply in_or_app. right. apply in_or_app. right. apply in_or_app. left.
    unfold lift_lines. apply (in_map (fun p => (fst p, V (snd p))) r (text label, w)). exact I1. }
  apply In_nth_error in I2. destruct I2 as (i & Hi). destruct (D i _ Hi 40) as (it & Gi & Ki & Ri).
  exists v, (Z.of_nat i), it. split; [exact P|]. split; [|auto]. rewrite N.
  assert (L : (i < List.length (frame x t (lift_lines r)))%nat) by (apply nth_error_Some; rewrite Hi; discriminate). unfold zlen. lia.
Qed.
Lemma op_items_same pf x t t' n la la' l l' label name a w : hash32 (p_hash pf) ->
  good_transaction (p_hash pf) t -> good_transaction (p_hash pf) t' ->
  xexpert_ok x (p_time pf) (x_payload t) -> xexpert_ok x (p_time pf) (x_payload t') ->
  before_args t < 256 -> before_args t' < 256 ->
  review (p_hash pf) x t = Some la -> review (p_hash pf) x t' = Some la' ->
  x_entry (x_payload t) = Op n -> x_entry (x_payload t') = Op n ->
  x_args (x_payload t) = Named l -> x_args (x_payload t') = Named l' ->
  In (label, name) (op_shown x n) -> find_arg (text name) l = Some a -> find_arg (text name) l' = Some a -> op_view name a = Some w ->
  exists v v' i j it, tx_parse pf x (enc_v1 t) = Ret v /\ tx_parse pf x (enc_v1 t') = Ret v' /\ ikey it = text label /\
    0 <= i < getNumItems x v /\ 0 <= j < getNumItems x v' /\ tx_getItem pf x 40 (enc_v1 t) v i = Ret it /\ tx_getItem pf x 40 (enc_v1 t') v' j = Ret it.
Proof.
  intros Hh G G' X X' B B' R R' E E' A A' S F F' W.
  destruct (op_item pf x t n l la label name a w Hh G X B R E A S F W) as (v & i & [k d] & P & N & Gi & K & D).
  destruct (op_item pf x t' n l' la' label name a w Hh G' X' B' R' E' A' S F' W) as (v' & j & [k' d'] & P' & N' & Gi' & K' & D').
  cbn [ikey ival] in *. subst k k'. rewrite (renders_fun _ _ _ _ _ D' D) in Gi'. exists v, v', i, j, (mkItem (text label) d). auto 8.
Qed.

(** * C49: what the item "Type" tells *)
Lemma shown_native pf x t v kl it : hash32 (p_hash pf) -> good_transaction (p_hash pf) t -> xexpert_ok x (p_time pf) (x_payload t) ->
  tx_parse pf x (enc_v1 t) = Ret v -> 1 < getNumItems x v -> tx_getItem pf x kl (enc_v1 t) v 1 = Ret it ->
  ival it <> VDirect (text "Contract Execution") ->
  ival it = VDirect (text (entry_text (x_entry (x_payload t)))) /\
  (x_target (x_payload t) = Native \/ session_target (x_target (x_payload t))).
Proof.
  intros Hh G X P N I D.
  destruct (top_shown pf x t v 1 (xl "Type" (Words (text (entry_text (x_entry (x_payload t)))))) Hh G X P N) with (kl := kl) as (it' & I' & K & R); [destruct x; reflexivity|].
  change (Z.of_nat 1) with 1 in I'. rewrite I in I'. injection I' as <-. cbn [snd xl xrenders renders] in R. split; [exact R|].
  destruct (x_target (x_payload t)) as [|i r|u r w] eqn:T; [left; reflexivity | | right; exists u, r, w; reflexivity].
  exfalso. destruct (stored_custom pf Hh x t G i r v T P) as (name & E). rewrite E in R. apply D. exact R.
Qed.

(** * C50: what is visible of transactions that carry code *)
Lemma bares_alike pf x da db a b la lb : hash32 (p_hash pf) -> displayed a -> displayed b ->
  bare_review (p_hash pf) x a = Some la -> bare_review (p_hash pf) x b = Some lb -> xreviews pf x da la -> xreviews pf x db lb -> look_alike pf x da db ->
  same_frame (p_time pf) x a b /\ same_session (p_hash pf) x (x_payload a) (x_payload b).
Proof.
  intros Hh Ga Gb Ra Rb Va Vb AL.
  unfold bare_review in Ra, Rb. destruct (bare_body (p_hash pf) x (x_payload a)) as [sa|] eqn:Sa; [|discriminate Ra]. destruct (bare_body (p_hash pf) x (x_payload b)) as [sb|] eqn:Sb; [|discriminate Rb].
  some_inj Ra. some_inj Rb. destruct (frames_alike pf x da db a b sa sb Ga Gb Va Vb AL) as (SF & T & F). split; [exact SF|].
  apply entry_text_op in T. unfold same_session. unfold bare_body in Sa, Sb.
  pose proof (dp_args _ Ga) as Aa. pose proof (dp_args _ Gb) as Ab.
  assert (HH : forall p q, Forall2 (xsame_line (p_hash pf) (p_time pf)) [xl "Args hash" (Hex (p_hash pf p))] [xl "Args hash" (Hex (p_hash pf q))] -> p_hash pf p = p_hash pf q).
  { intros p q X. inversion X as [|? ? ? ? Y _]; subst. apply xline_eq in Y; [|exact I|apply Hh|apply Hh]. injection Y as Y. exact Y. }
  destruct (x_entry (x_payload a)) as [|e|n], (x_entry (x_payload b)) as [|f|m]; try contradiction T; try exact I;
    destruct (x_target (x_payload a)); try discriminate Sa; destruct (x_target (x_payload b)); try discriminate Sb;
    try (some_inj Sa; some_inj Sb; apply HH; exact F);
    subst m; (split; [reflexivity|]); specialize (fun y => Aa n y eq_refl) as Aa'; specialize (fun y => Ab n y eq_refl) as Ab';
    destruct (x_args (x_payload a)) as [ka|]; try discriminate Sa; destruct (x_args (x_payload b)) as [kb|]; try discriminate Sb;
    unfold op_review in Sa, Sb; (destruct (_ && _) in Sa; [|discriminate Sa]); (destruct (_ && _) in Sb; [|discriminate Sb]);
    (destruct (all (op_lines (p_hash pf) x n ka)) as [ra|] eqn:Ea; [|discriminate Sa]); (destruct (all (op_lines (p_hash pf) x n kb)) as [rb|] eqn:Eb; [|discriminate Sb]);
    some_inj Sa; some_inj Sb; apply lift_same in F; cbn [named] in *; (split; [eapply op_same; eauto | eapply vector_same; eauto]).
Qed.
Lemma sessions_alike pf x a b la lb : hash32 (p_hash pf) ->
  good_transaction (p_hash pf) a -> good_transaction (p_hash pf) b ->
  xexpert_ok x (p_time pf) (x_payload a) -> xexpert_ok x (p_time pf) (x_payload b) ->
  before_args a < 256 -> before_args b < 256 ->
  bare_review (p_hash pf) x a = Some la -> bare_review (p_hash pf) x b = Some lb ->
  look_alike pf x (enc_v1 a) (enc_v1 b) ->
  same_frame (p_time pf) x a b /\ same_session (p_hash pf) x (x_payload a) (x_payload b).
Proof.
  intros Hh Ga Gb Xa Xb Ba Bb Ra Rb. apply bares_alike with (la := la) (lb := lb); auto using (good_displayed (p_hash pf)); eapply v1_bare; eauto.
Qed.
