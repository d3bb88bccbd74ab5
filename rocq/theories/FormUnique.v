(** The parts of a form are determined by its bytes. *)
From Verif Require Import Base Zxlib BaseFacts Spec SpecText SpecDeploy SpecTx SpecLayout SpecRaw SpecForm SpecShow Exec ArgsFacts ReaderFacts BindCases TxFacts FormFacts.
Import S SX SL SR SF SW.

Lemma same_n (a b r s : list Z) : a ++ r = b ++ s -> zlen a = zlen b -> a = b /\ r = s.
Proof. intros H L. apply app_inj_len; [exact H|unfold zlen in L; lia]. Qed.
Lemma same_le n v w r s : 0 <= v < 256 ^ Z.of_nat n -> 0 <= w < 256 ^ Z.of_nat n -> le n v ++ r = le n w ++ s -> v = w /\ r = s.
Proof.
  intros V W H. apply same_n in H; [|rewrite !le_length; reflexivity]. destruct H as [H ->]. split; [|reflexivity].
  rewrite <- (value_le n v V), <- (value_le n w W), H. reflexivity.
Qed.
Lemma same_word v w r s : word v -> word w -> le 4 v ++ r = le 4 w ++ s -> v = w /\ r = s.
Proof. intros V W. apply same_le; [exact V|exact W]. Qed.
Lemma same_lv a b r s : zlen a < 2 ^ 32 -> zlen b < 2 ^ 32 -> lv a ++ r = lv b ++ s -> a = b /\ r = s.
Proof.
  intros A B H. unfold lv in H. rewrite <- !app_assoc in H. change (@S.len Z) with (@zlen Z) in H. pose proof (zlen_nonneg a). pose proof (zlen_nonneg b).
  apply same_word in H; [|split; auto..]. destruct H as [L H]. apply same_n in H; auto.
Qed.
Lemma same_entries l : forall l' i r s, zlen l = zlen l' -> Forall word l -> Forall word l' -> raw_entries i l ++ r = raw_entries i l' ++ s -> l = l' /\ r = s.
Proof.
  induction l as [|o l IH]; intros [|o' l'] i r s E0 F F' H; try (exfalso; unfold zlen in E0; cbn [List.length] in E0; lia); [auto|].
  inversion F; inversion F'; subst. cbn [raw_entries] in H. rewrite <- !app_assoc in H. apply app_inv_head in H.
  apply same_word in H; auto. destruct H as [-> H]. destruct (IH l' (i + 1) r s) as [-> ->]; auto. rewrite !zlen_cons in E0. lia.
Qed.
Lemma same_heading t t' r s : table_ok t -> table_ok t' -> heading t ++ r = heading t' ++ s -> t = t' /\ r = s.
Proof.
  intros [N O S1 _ L] [N' O' S1' _ L'] H. unfold heading, raw_head in H. rewrite <- !app_assoc in H.
  apply same_word in H; auto. destruct H as [E H]. change (@S.len Z) with (@zlen Z) in *.
  apply same_entries in H; auto; [|rewrite L, L', E; reflexivity]. destruct H as [E1 H]. apply same_word in H; auto. destruct H as [E2 ->].
  split; [|reflexivity]. destruct t, t'; cbn in *; subst; reflexivity.
Qed.
Lemma same_cons (a b : Z) r s : a :: r = b :: s -> a = b /\ r = s. Proof. intros H. injection H as -> ->. auto. Qed.

(** ** Types *)
Lemma same_parameter t p q r s : parameter t p -> parameter t q -> p ++ r = q ++ s -> p = q /\ r = s.
Proof. intros [[-> L]|[N ->]] [[E L']|[N' ->]] H; try contradiction; [|auto]. apply same_n; [exact H|]. change (@S.len Z) with (@zlen Z) in *. lia. Qed.
Ltac clash := exfalso; unfold simple, component in *; lia.
Lemma same_flat t p q r s : flat t p -> flat t q -> p ++ r = q ++ s -> p = q /\ r = s.
Proof.
  intros A B H. inversion A; inversion B; subst; try clash; try discriminate; cbn [app] in H.
  - auto.
  - apply same_n; [exact H|]. change (@S.len Z) with (@zlen Z) in *. lia.
  - apply same_cons in H. destruct H; subst. auto.
  - apply same_cons in H. destruct H; subst. clash.
  - apply same_cons in H. destruct H; subst. clash.
  - apply same_cons in H. destruct H as [-> H]. eapply same_parameter in H; eauto. destruct H; subst. auto.
  - apply same_cons in H. destruct H as [-> H]. apply same_cons in H. destruct H as [-> H]. rewrite <- !app_assoc in H.
    eapply same_parameter in H; eauto. destruct H as [-> H]. eapply same_parameter in H; eauto. destruct H; subst. auto.
  - apply same_cons in H. destruct H as [-> H]. apply same_cons in H. destruct H as [-> H]. apply same_cons in H. destruct H as [-> H]. rewrite <- !app_assoc in H.
    eapply same_parameter in H; eauto. destruct H as [-> H]. eapply same_parameter in H; eauto. destruct H as [-> H]. eapply same_parameter in H; eauto. destruct H; subst. auto.
Qed.
Lemma flat_17 p : ~ flat 17 p. Proof. intros A. inversion A; subst; clash. Qed.
Lemma same_type p q r s : type_bytes p -> type_bytes q -> p ++ r = q ++ s -> p = q /\ r = s.
Proof.
  intros A B H. inversion A; inversion B; subst; cbn [app] in H; apply same_cons in H; destruct H as [E H]; subst; try (exfalso; eapply flat_17; eassumption).
  - eapply same_flat in H; eauto. destruct H; subst. auto.
  - apply same_cons in H. destruct H as [-> H]. apply same_cons in H. destruct H as [-> H]. rewrite <- !app_assoc in H.
    eapply same_flat in H; eauto. destruct H as [-> H]. eapply same_flat in H; eauto. destruct H; subst. auto.
Qed.

(** ** Arguments *)
Lemma same_arg a b r s : readable a -> readable b -> zlen (raw_bytes a) < 2 ^ 32 -> zlen (raw_bytes b) < 2 ^ 32 -> raw_bytes a ++ r = raw_bytes b ++ s -> a = b /\ r = s.
Proof.
  intros A B L L' H. unfold raw_bytes in *. rewrite !zlen_app, !zlen_lv in L, L'. rewrite <- !app_assoc in H.
  pose proof (zlen_nonneg (r_name a)). pose proof (zlen_nonneg (r_val a)). pose proof (zlen_nonneg (r_ty a)).
  pose proof (zlen_nonneg (r_name b)). pose proof (zlen_nonneg (r_val b)). pose proof (zlen_nonneg (r_ty b)).
  apply same_lv in H; [|lia..]. destruct H as [E1 H]. apply same_lv in H; [|lia..]. destruct H as [E2 H]. apply same_type in H; auto. destruct H as [E3 ->].
  split; [|reflexivity]. destruct a, b; cbn in *; subst; reflexivity.
Qed.
Lemma same_args l : forall l' r s, Forall readable l -> Forall readable l' -> zlen l = zlen l' -> zlen (args_bytes l) < 2 ^ 32 -> zlen (args_bytes l') < 2 ^ 32 ->
  args_bytes l ++ r = args_bytes l' ++ s -> l = l' /\ r = s.
Proof.
  induction l as [|a l IH]; intros [|b l'] r s F F' E0 L L' H; try (exfalso; unfold zlen in E0; cbn [List.length] in E0; lia); [auto|].
  inversion F; inversion F'; subst. change (args_bytes (a :: l)) with (raw_bytes a ++ args_bytes l) in *. change (args_bytes (b :: l')) with (raw_bytes b ++ args_bytes l') in *.
  rewrite <- !app_assoc in H. rewrite zlen_app in L, L'. rewrite !zlen_cons in E0.
  pose proof (zlen_nonneg (raw_bytes a)). pose proof (zlen_nonneg (raw_bytes b)). pose proof (zlen_nonneg (args_bytes l)). pose proof (zlen_nonneg (args_bytes l')).
  apply same_arg in H; auto; [|lia..]. destruct H as [-> H]. destruct (IH l' r s) as [-> ->]; auto; lia.
Qed.
Lemma args_short l : Forall readable l -> zlen l <= zlen (args_bytes l).
Proof.
  induction 1 as [|a l A F IH]; [cbn; lia|]. change (args_bytes (a :: l)) with (raw_bytes a ++ args_bytes l). rewrite zlen_cons, zlen_app.
  unfold raw_bytes. rewrite !zlen_app, !zlen_lv. pose proof (zlen_nonneg (r_name a)). pose proof (zlen_nonneg (r_val a)). pose proof (zlen_nonneg (r_ty a)). lia.
Qed.
Lemma same_arguments a b r s : form_args a -> form_args b -> zlen (argument_bytes a) < 2 ^ 32 -> zlen (argument_bytes b) < 2 ^ 32 ->
  argument_bytes a ++ r = argument_bytes b ++ s -> a = b /\ r = s.
Proof.
  intros A B L L' H. destruct a as [l|p], b as [l'|q]; cbn [argument_bytes app form_args] in *; apply same_cons in H; destruct H as [E H]; try discriminate E.
  - rewrite zlen_cons, zlen_app, le_length in L, L'. rewrite <- !app_assoc in H. change (@S.len raw_arg) with (@zlen raw_arg) in H.
    pose proof (args_short l A). pose proof (args_short l' B). pose proof (zlen_nonneg l). pose proof (zlen_nonneg l').
    apply same_word in H; [|unfold word; lia..]. destruct H as [E1 H]. apply same_args in H; auto; [|lia..]. destruct H as [-> ->]. auto.
  - rewrite zlen_cons, zlen_lv in L, L'. apply same_lv in H; [|lia..]. destruct H as [-> ->]. auto.
Qed.

(** ** Header *)
Lemma same_initiator a b r s : form_initiator a -> form_initiator b ->
  List.concat (initiator_fields a) ++ r = List.concat (initiator_fields b) ++ s -> a = b /\ r = s.
Proof.
  intros A B H. unfold initiator_fields in H. cbn [List.concat] in H. rewrite !app_nil_r, <- !app_assoc in H. cbn [app] in H. apply same_cons in H. destruct H as [E H].
  destruct a as [alg key|h], b as [alg' key'|h']; try discriminate E; cbn [form_initiator init_bytes app] in *; change (@S.len Z) with (@zlen Z) in *.
  - apply same_cons in H. destruct H as [-> H]. unfold any_key in *. change (@S.len Z) with (@zlen Z) in *. apply same_n in H; [destruct H as [-> ->]; auto|].
    destruct A as [[-> ->]|[[-> A]|[-> A]]], B as [[B0 B]|[[B0 B]|[B0 B]]]; try discriminate B0; subst; try reflexivity; lia.
  - apply same_n in H; [destruct H as [-> ->]; auto|]. lia.
Qed.
Lemma same_pricing a b r s : form_price a -> form_price b ->
  List.concat (price_fields a) ++ r = List.concat (price_fields b) ++ s -> a = b /\ r = s.
Proof.
  intros A B H. destruct a as [a g f|g f|p], b as [a' g' f'|g' f'|p']; cbn [price_fields List.concat form_price] in *; rewrite !app_nil_r, <- !app_assoc in H; cbn [app] in H;
    apply same_cons in H; destruct H as [E H]; try discriminate E.
  - apply same_le in H; [|apply A|apply B]. destruct H as [-> H]. apply same_cons in H. destruct H as [-> H]. apply same_cons in H. destruct H as [-> ->]. auto.
  - apply same_cons in H. destruct H as [-> H]. apply same_cons in H. destruct H as [-> ->]. auto.
  - change (@S.len Z) with (@zlen Z) in *. apply same_n in H; [destruct H as [-> ->]; auto|lia].
Qed.

(** ** Target and entry point *)
Lemma same_version v w r s : SD.good_ver v -> SD.good_ver w -> SD.enc_ver v ++ r = SD.enc_ver w ++ s -> v = w /\ r = s.
Proof.
  intros V W H. destruct v as [v|], w as [w|]; cbn [SD.enc_ver SD.good_ver app] in *; apply same_cons in H; destruct H as [E H]; try discriminate E; [|subst; auto].
  apply same_word in H; auto. destruct H as [-> ->]. auto.
Qed.
Lemma same_runtime v w r s : good_runtime v -> good_runtime w ->
  List.concat (runtime_fields v) ++ r = List.concat (runtime_fields w) ++ s -> v = w /\ r = s.
Proof.
  intros A B H. destruct v as [|v sv], w as [|w sw]; cbn [runtime_fields List.concat good_runtime] in *; rewrite ?app_nil_r, <- ?app_assoc in H; cbn [app] in H;
    apply same_cons in H; destruct H as [E H]; try discriminate E; [subst; auto|].
  apply same_le in H; [|apply A|apply B]. destruct H as [-> H]. destruct A as [_ A], B as [_ B]. change (@S.len Z) with (@zlen Z) in *.
  destruct sv as [h|], sw as [h'|]; cbn [app] in H; apply same_cons in H; destruct H as [E' H]; try discriminate E'; [|subst; auto].
  apply same_n in H; [|lia]. destruct H as [-> ->]. auto.
Qed.
Lemma same_id v w r s : form_id v -> form_id w -> zlen (List.concat (id_fields v)) < 2 ^ 32 -> zlen (List.concat (id_fields w)) < 2 ^ 32 ->
  List.concat (id_fields v) ++ r = List.concat (id_fields w) ++ s -> v = w /\ r = s.
Proof.
  intros A B L L' H.
  destruct v as [h|n|h v|n v], w as [h'|n'|h' v'|n' v']; cbn [id_fields List.concat form_id] in *; rewrite ?app_nil_r in *; rewrite ?zlen_app, ?zlen_lv in L, L';
    rewrite <- ?app_assoc in H; cbn [app] in H;
    apply same_cons in H; destruct H as [E H]; try discriminate E; change (@S.len Z) with (@zlen Z) in *; change (zlen [1]) with 1 in *; change (zlen [3]) with 1 in *.
  - apply same_n in H; [|lia]. destruct H as [-> ->]. auto.
  - apply same_lv in H; [|lia..]. destruct H as [-> ->]. auto.
  - apply same_n in H; [|lia]. destruct H as [-> H]. apply same_version in H; [|tauto..]. destruct H as [-> ->]. auto.
  - pose proof (zlen_nonneg (SD.enc_ver v)). pose proof (zlen_nonneg (SD.enc_ver v')). apply same_lv in H; [|lia..]. destruct H as [-> H]. apply same_version in H; auto. destruct H as [-> ->]. auto.
Qed.
Definition inner_ok (k : numbers) (t : xtarget) : Prop :=
  match t with XStored _ _ => table_ok (n_id k) | _ => True end /\ match t with Native => True | _ => table_ok (n_runtime k) end.
Definition same_inner (k k' : numbers) (t : xtarget) : Prop :=
  match t with Native => True | XStored _ _ => n_id k = n_id k' /\ n_runtime k = n_runtime k' | Session _ _ _ => n_runtime k = n_runtime k' end.
Lemma zlen_head_pos t : 0 <= zlen (heading t). Proof. apply zlen_nonneg. Qed.
Lemma same_target k k' t t' r s : form_target t -> form_target t' -> inner_ok k t -> inner_ok k' t' ->
  zlen (List.concat (target_fields k t)) < 2 ^ 32 -> zlen (List.concat (target_fields k' t')) < 2 ^ 32 ->
  List.concat (target_fields k t) ++ r = List.concat (target_fields k' t') ++ s -> t = t' /\ r = s /\ same_inner k k' t.
Proof.
  intros A B I I' L L' H. unfold inner_ok, under in *.
  destruct t as [|i q|b q w], t' as [|i' q'|b' q' w']; cbn [target_fields List.concat form_target] in *; unfold under in *; rewrite ?app_nil_r in *; rewrite <- ?app_assoc in *; cbn [app] in H;
    apply same_cons in H; destruct H as [E H]; try discriminate E.
  - subst. repeat split; auto.
  - rewrite !zlen_app in L, L'.
    pose proof (zlen_nonneg (heading (n_id k))). pose proof (zlen_nonneg (heading (n_id k'))). pose proof (zlen_nonneg (heading (n_runtime k))). pose proof (zlen_nonneg (heading (n_runtime k'))).
    pose proof (zlen_nonneg (List.concat (runtime_fields q))). pose proof (zlen_nonneg (List.concat (runtime_fields q'))). change (zlen [1]) with 1 in *.
    apply same_heading in H; [|tauto..]. destruct H as [E1 H]. apply same_id in H; [|tauto|tauto|lia..]. destruct H as [-> H].
    apply same_heading in H; [|tauto..]. destruct H as [E2 H]. apply same_runtime in H; [|tauto..]. destruct H as [-> ->]. repeat split; auto.
  - apply same_cons in H. destruct H as [Eb H].
    rewrite !zlen_app, zlen_lv in L, L'.
    pose proof (zlen_nonneg (heading (n_runtime k))). pose proof (zlen_nonneg (heading (n_runtime k'))).
    pose proof (zlen_nonneg (List.concat (runtime_fields q))). pose proof (zlen_nonneg (List.concat (runtime_fields q'))). change (zlen [2]) with 1 in *.
    change (zlen [bool_byte b]) with 1 in *. change (zlen [bool_byte b']) with 1 in *.
    apply same_heading in H; [|tauto..]. destruct H as [E1 H]. apply same_runtime in H; [|tauto..]. destruct H as [-> H].
    apply same_lv in H; [|lia..]. destruct H as [-> ->]. split; [|split; [reflexivity|exact E1]].
    f_equal. destruct b, b'; auto; discriminate Eb.
Qed.
Lemma same_entry x y r s : zlen (List.concat (entry_fields x)) < 2 ^ 32 -> zlen (List.concat (entry_fields y)) < 2 ^ 32 ->
  List.concat (entry_fields x) ++ r = List.concat (entry_fields y) ++ s -> x = y /\ r = s.
Proof.
  intros L L' H. destruct x as [|n|n], y as [|m|m]; cbn [entry_fields List.concat] in *; rewrite ?app_nil_r in *; cbn [app] in H;
    apply same_cons in H; destruct H as [E H]; try discriminate E; try (subst; auto; fail); try (destruct n; discriminate E); try (destruct m; discriminate E).
  - rewrite zlen_app, zlen_lv in L, L'. pose proof (zlen_nonneg [1]). apply same_lv in H; [destruct H as [-> ->]; auto|lia..].
  - subst. split; [|reflexivity]. f_equal. destruct n, m; try discriminate E; reflexivity.
Qed.

(** ** The whole *)
Definition core (k : numbers) (u : form) : list Z := heading (n_top k) ++ f_hash u ++ form_payload k u.
Lemma begins_core data k u : begins data k u -> exists more, data = core k u ++ le 4 (zlen (f_approvals u)) ++ more.
Proof.
  intros (F & N & rest & cut & E & D & M). unfold form_bytes, under, top_fields in E. cbn [List.concat] in E. rewrite app_nil_r in E.
  unfold approvals_bytes in E. change (@S.len approved) with (@zlen approved) in E.
  assert (X : forall a b, data ++ cut = (heading (n_top k) ++ f_hash u ++ form_payload k u ++ a ++ b) ++ rest -> data ++ cut = core k u ++ a ++ b ++ rest).
  { intros a b ->. unfold core. rewrite <- !app_assoc. reflexivity. }
  apply X in E. clear X. destruct M as [-> |(m & a & s & El & Es)].
  - rewrite app_nil_r in E. eauto.
  - destruct D as [-> | ->]; [rewrite app_nil_r in E; eauto|]. rewrite app_nil_r in E. rewrite El in *.
    rewrite map_app, concat_app in E. cbn [List.map List.concat] in E. rewrite app_nil_r in E. unfold approved_bytes at 2 in E. rewrite Es in E.
    exists (List.concat (List.map approved_bytes m) ++ [p_alg a] ++ p_key a ++ [p_sigalg a] ++ s). apply (app_inv_tail cut). rewrite E. rewrite <- !app_assoc. reflexivity.
Qed.
Lemma approvals_short l : Forall form_approved l -> zlen l <= zlen (List.concat (List.map approved_bytes l)).
Proof.
  induction 1 as [|a l A F IH]; [cbn; lia|]. cbn [List.map List.concat]. rewrite zlen_cons, zlen_app. unfold approved_bytes at 1. rewrite !zlen_app. change (zlen [p_alg a]) with 1.
  pose proof (zlen_nonneg (p_key a)). pose proof (zlen_nonneg [p_sigalg a]). pose proof (zlen_nonneg (p_sig a)). lia.
Qed.
Lemma begins_few data k u : begins data k u -> zlen data < 2 ^ 31 -> zlen (f_approvals u) < 2 ^ 32.
Proof.
  intros (F & N & rest & cut & E & D & M) L. pose proof (approvals_short _ (fo_approvals _ F)) as S0. apply (f_equal (@zlen Z)) in E. rewrite !zlen_app in E.
  unfold form_bytes, under, top_fields in E. cbn [List.concat] in E. rewrite !zlen_app in E. unfold approvals_bytes in E. rewrite zlen_app in E.
  repeat match goal with H : context [zlen ?l] |- _ => lazymatch goal with X : 0 <= zlen l |- _ => fail | _ => pose proof (zlen_nonneg l) end end.
  assert (zlen cut <= 64).
  { destruct M as [-> |(m & a & s & El & Es)]; [cbn; lia|]. pose proof (fo_approvals _ F) as P. rewrite El, Forall_app in P. destruct P as [_ P]. inversion P as [|? ? (_ & _ & ZZ) _]; subst.
    change (@S.len Z) with (@zlen Z) in ZZ. rewrite Es, zlen_app in ZZ. pose proof (zlen_nonneg s). lia. }
  lia.
Qed.
Lemma same_section i a b bs cs r s : word a -> word b -> section i a bs ++ r = section i b cs ++ s -> a = b /\ bs ++ r = cs ++ s.
Proof. unfold section. intros A B H. rewrite <- !app_assoc in H. apply app_inv_head in H. apply same_word in H; auto. Qed.
Lemma under_short t fs : zlen (List.concat fs) <= zlen (under t fs).
Proof. unfold under. rewrite zlen_app. pose proof (zlen_nonneg (heading t)). lia. Qed.
Lemma same_under t t' fs gs r s : table_ok t -> table_ok t' -> under t fs ++ r = under t' gs ++ s -> t = t' /\ List.concat fs ++ r = List.concat gs ++ s.
Proof. unfold under. intros A B H. rewrite <- !app_assoc in H. apply same_heading in H; auto. Qed.
Lemma starts_ok t fs : starts t fs -> table_ok t. Proof. intros S0. apply S0. Qed.
Lemma target_ok k u : numbers_ok k u -> table_ok (snd (n_target k)).
Proof. intros N. pose proof (no_target _ _ N) as T. destruct (f_target u); apply T. Qed.
Lemma inner_is k u : numbers_ok k u -> inner_ok k (f_target u).
Proof. intros N. split; [exact (no_id _ _ N)|exact (no_runtime _ _ N)]. Qed.
Ltac nonneg := repeat match goal with H : context [zlen ?l] |- _ => lazymatch goal with X : 0 <= zlen l |- _ => fail | _ => pose proof (zlen_nonneg l) end end.
Lemma core_bounds k u : zlen (core k u) < 2 ^ 31 ->
  zlen (f_chain u) < 2 ^ 32 /\ zlen (argument_bytes (f_args u)) < 2 ^ 32 /\ zlen (List.concat (target_fields k (f_target u))) < 2 ^ 32 /\
  zlen (List.concat (entry_fields (f_entry u))) < 2 ^ 32.
Proof.
  unfold core, form_payload, under, form_fields, section. cbn [List.concat]. unfold under. rewrite !zlen_app, !zlen_lv. intros L. nonneg. lia.
Qed.
Lemma same_core k k' u u' r s : form_ok u -> form_ok u' -> numbers_ok k u -> numbers_ok k' u' ->
  zlen (core k u) < 2 ^ 31 -> zlen (core k' u') < 2 ^ 31 -> zlen (f_approvals u) < 2 ^ 32 -> zlen (f_approvals u') < 2 ^ 32 ->
  core k u ++ le 4 (zlen (f_approvals u)) ++ r = core k' u' ++ le 4 (zlen (f_approvals u')) ++ s -> same_form k u k' u'.
Proof.
  intros F F' N N' L L' P P' H. apply core_bounds in L. apply core_bounds in L'. destruct L as (L1 & L2 & L3 & L4), L' as (L1' & L2' & L3' & L4').
  pose proof (zlen_nonneg (f_approvals u)) as P0. pose proof (zlen_nonneg (f_approvals u')) as P0'.
  unfold core, form_payload, form_fields in H. rewrite <- !app_assoc in H.
  apply same_heading in H; [|apply N|apply N']. destruct H as [E1 H].
  apply same_n in H. 2:{ pose proof (fo_hash _ F). pose proof (fo_hash _ F'). change (@S.len Z) with (@zlen Z) in *. lia. } destruct H as [E2 H].
  apply same_under in H; [|apply N|apply N']. destruct H as [E3 H]. cbn [List.concat] in H. rewrite <- !app_assoc in H. cbn [app] in H.
  apply same_under in H; [|apply N|apply N']. destruct H as [E4 H]. apply same_initiator in H; [|apply F|apply F']. destruct H as [E5 H].
  apply same_le in H; [|apply F|apply F']. destruct H as [E6 H]. apply same_le in H; [|apply F|apply F']. destruct H as [E7 H].
  apply same_lv in H; auto. destruct H as [E8 H].
  apply same_under in H; [|apply N|apply N']. destruct H as [E9 H]. apply same_pricing in H; [|apply F|apply F']. destruct H as [E10 H].
  apply app_inv_head in H. rewrite ?app_nil_l in H.
  apply same_section in H; [|apply N|apply N']. destruct H as [E11 H]. apply same_arguments in H; [|apply F|apply F'|assumption|assumption]. destruct H as [E12 H].
  apply same_section in H; [|apply N|apply N']. destruct H as [E13 H]. apply same_under in H; [|eapply target_ok; eassumption..]. destruct H as [E14 H].
  apply same_target in H; [|apply F|apply F'|apply inner_is; assumption|apply inner_is; assumption|assumption|assumption]. destruct H as (E15 & H & E16).
  apply same_section in H; [|apply N|apply N']. destruct H as [E17 H]. apply same_under in H; [|apply N|apply N']. destruct H as [E18 H].
  apply same_entry in H; auto. destruct H as [E19 H].
  apply same_section in H; [|apply N|apply N']. destruct H as [E20 H]. apply same_under in H; [|apply N|apply N']. destruct H as [E21 H].
  apply app_inv_head in H. apply same_word in H; [|split; assumption..]. destruct H as [E22 _].
  constructor; auto.
  repeat split; auto; [destruct (n_target k), (n_target k')|destruct (n_entry k), (n_entry k')|destruct (n_sched k), (n_sched k')]; cbn [fst snd] in *; congruence.
Qed.
Lemma form_unique data k u k' u' : zlen data < 2 ^ 31 -> begins data k u -> begins data k' u' -> same_form k u k' u'.
Proof.
  intros L B B'. pose proof (begins_few _ _ _ B L) as P. pose proof (begins_few _ _ _ B' L) as P'.
  destruct (begins_core _ _ _ B) as [m E], (begins_core _ _ _ B') as [m' E'].
  pose proof (f_equal (@zlen Z) E) as Z1. pose proof (f_equal (@zlen Z) E') as Z2. rewrite !zlen_app in Z1, Z2. nonneg.
  apply (same_core k k' u u' m m'); try apply B; try apply B'; try assumption; try lia. congruence.
Qed.
