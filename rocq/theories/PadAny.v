(** Every call whose arguments stand shortly before byte 256 can be put under a
    table with ten entries, and then the bytes hashed on screen are others. *)
From Verif Require Import Base Zxlib Crypto Utils RuntimeArg Deploy DeployUI TxV1 TxV1UI Parser BaseFacts Spec SpecText SpecDeploy SpecTx SpecLayout SpecRaw SpecForm SpecShow SpecHead SpecWrap Exec ArgsFacts ReaderFacts TextFacts Demo Shows DeployArgs SessionFacts ReviewFacts TxFacts TxBody TxShow TxReview RangeFacts BindFacts BindCases SafeFacts TxInv RawFacts TxAccept FwdFacts FormFacts FormUnique FormReview FormArgs FormRun FormAccept App SpecApp AppFacts AppHist AppClaims AppSign FormSign DeploySign OklFacts HeadFacts HeadClear FormShow FormSeen HeadSeen SeenSign.
Import S ST SD SX SL SR SF SW SH SG.

(** Ten entries: the three of the fields and seven that are not looked at. *)
Definition full_tbl (k : numbers) (u : form) (w : list Z) : tbl :=
  Tbl 10 (offsets 0 (top_fields k u) ++ w) (S.len (List.concat (top_fields k u))).
Definition bare_of (u : form) : form := re_signed u [].
Definition full (k : numbers) (u : form) (w : list Z) : numbers := re_top k (full_tbl k (bare_of u) w).
Definition full_data (k : numbers) (u : form) (w : list Z) : list Z := form_bytes (full k u w) (bare_of u).

Lemma raw_entries_bytes offs i : bytes (raw_entries i offs).
Proof. revert i. induction offs as [|o r IH]; intros i; cbn [raw_entries]; [constructor|]. unfold bytes. rewrite !Forall_app. split; [apply le_bytes|]. split; [apply le_bytes|apply IH]. Qed.
Lemma bare_fields k u : top_fields k (bare_of u) = [f_hash u; form_payload k u; le 4 0].
Proof. unfold top_fields, approvals_bytes. cbn. f_equal. Qed.
Lemma full_split k u w : full_data k u w = heading (full_tbl k (bare_of u) w) ++ (f_hash u ++ form_payload k u) ++ le 4 0.
Proof.
  unfold full_data, form_bytes, under, full. cbn [re_top n_top]. f_equal. unfold top_fields. cbn [List.concat]. rewrite app_nil_r.
  unfold bare_of. rewrite re_payload. unfold approvals_bytes. cbn [re_signed f_hash f_approvals List.map List.concat]. rewrite <- app_assoc, app_nil_r. reflexivity.
Qed.
Lemma full_ok data k u w : begins data k u -> zlen data < 65000 -> Forall word w -> zlen w = 7 -> begins (full_data k u w) (full k u w) (bare_of u).
Proof.
  intros Bg L Ww Lw. pose proof Bg as (F & N & _). destruct (begins_core _ _ _ Bg) as (m & Ed).
  assert (ZP : 0 <= zlen (form_payload k u) < 65000).
  { split; [apply zlen_nonneg|]. rewrite Ed in L. unfold core in L. rewrite !zlen_app in L. pose proof (zlen_nonneg (heading (n_top k))). pose proof (zlen_nonneg (f_hash u)). pose proof (zlen_nonneg m).
    pose proof (zlen_nonneg (le 4 (zlen (f_approvals u)))). lia. }
  assert (ZH : zlen (f_hash u) = 32) by exact (fo_hash _ F).
  assert (F' : form_ok (bare_of u)) by (destruct F; constructor; cbn [bare_of re_signed f_hash f_initiator f_time f_ttl f_price f_args f_target f_entry f_approvals]; auto).
  assert (EF : top_fields (full k u w) (bare_of u) = top_fields k (bare_of u)) by (unfold top_fields, full; cbn [bare_of]; unfold bare_of; rewrite re_payload; reflexivity).
  assert (N' : numbers_ok (full k u w) (bare_of u)).
  { destruct N. constructor; cbn [full re_top bare_of re_signed n_top n_payload n_initiator n_price n_args n_target n_id n_runtime n_entry n_sched f_initiator f_price f_target f_entry]; auto.
    change (covers (full_tbl k (bare_of u) w) (top_fields (full k u w) (bare_of u))). rewrite EF. unfold full_tbl. rewrite bare_fields.
    assert (Lc : zlen (List.concat [f_hash u; form_payload k u; le 4 0]) = 36 + zlen (form_payload k u)) by (cbn [List.concat]; rewrite !zlen_app, ZH, le_length; change (zlen (@nil Z)) with 0; lia).
    split.
    - split; [|exists w; reflexivity]. constructor; cbn [t_n t_offs t_size]; change (@S.len Z) with (@zlen Z).
      + unfold word. lia.
      + cbn [offsets app]. change (@S.len Z) with (@zlen Z). rewrite ZH. repeat (constructor; [unfold word; lia|]). exact Ww.
      + unfold word. lia.
      + cbn; lia.
      + cbn [offsets app]. rewrite !zlen_cons, Lw. reflexivity.
    - cbn [t_size]. change (@S.len Z) with (@zlen Z). rewrite Z.mod_small; lia. }
  unfold full_data. rewrite <- (app_nil_r (form_bytes _ _)). split; [exact F'|]. split; [exact N'|]. exists [], []. rewrite !app_nil_r. split; [reflexivity|]. split; left; reflexivity.
Qed.

Lemma custom_any H x i nm bs0 bs s : custom_review H x i nm (Raw bs0) = Some s ->
  exists s', custom_review H x i nm (Raw bs) = Some s' /\ In (xl "Args hash" (SD.Hex (H bs))) s'.
Proof.
  unfold custom_review. cbn [arg_bytes]. destruct i as [h|n|h o|n o]; intros E.
  1,2: eexists; split; [reflexivity|]; cbn [app In]; auto 6.
  all: destruct x; [destruct o as [v|]; [destruct (v =? 2 ^ 32 - 1)|]|]; try discriminate E; eexists; (split; [reflexivity|]); cbn [app In]; auto 8.
Qed.

(** The bytes at position [p] of the whole. *)
Lemma here_slice (d : list Z) p n : 0 <= p -> 0 <= n -> p + n <= zlen d -> exists bs, here d p bs /\ zlen bs = n.
Proof.
  intros P N Q. unfold zlen in Q. exists (firstn (Z.to_nat n) (skipn (Z.to_nat p) d)). split.
  - exists (firstn (Z.to_nat p) d), (skipn (Z.to_nat n) (skipn (Z.to_nat p) d)). rewrite !firstn_skipn. split; [reflexivity|]. change (@S.len Z) with (@zlen Z). unfold zlen. rewrite firstn_length. lia.
  - unfold zlen. rewrite firstn_length, skipn_length. lia.
Qed.

Lemma pad_any pf x data k u t lines nm w : hash32 (p_hash pf) -> bytes data -> zlen data < 65000 -> begins data k u -> f_hash u = p_hash pf (form_payload k u) ->
  f_entry u = Custom nm -> appears k u data t -> within k u t -> chain_shown x (f_chain u) -> review (p_hash pf) x t = Some lines -> xexpert_ok x (p_time pf) (x_payload t) ->
  args_pos k u < 256 -> 260 <= args_pos k u + 6 * (10 - zlen (t_offs (n_top k))) -> Forall word w -> zlen w = 7 ->
  exists data' k' u' bs0 bs p lines', begins data' k' u' /\ form_payload k' u' = form_payload k u /\ f_hash u' = f_hash u /\
    (exists o1 o2 o3, t_offs (n_top k') = o1 :: o2 :: o3 :: w) /\ 0 <= p <= 41 /\ here data' p bs /\ x_args (x_payload t) = Raw bs0 /\ zlen bs = zlen bs0 /\ xreviews pf x (1 :: data') lines' /\
    In (xl "Args hash" (SD.Hex (p_hash pf bs))) lines'.
Proof.
  intros Hh B L Bg HV En Ap Wi CS R EX P1 P2 Ww Lw.
  pose proof (full_ok data k u w Bg L Ww Lw) as Bg'. pose proof (full_split k u w) as Sp.
  destruct (begins_core _ _ _ Bg) as (m & Ed). unfold core in Ed.
  assert (ZF : zlen (t_offs (full_tbl k (bare_of u) w)) = 10) by (unfold full_tbl; rewrite bare_fields; cbn [t_offs offsets app]; rewrite !zlen_cons, Lw; reflexivity).
  assert (ZT : 3 <= zlen (t_offs (n_top k))).
  { destruct Bg as (_ & N & _). destruct (no_top _ _ N) as [[_ (mo & Eo)] _]. rewrite Eo. unfold top_fields. cbn [offsets app]. rewrite !zlen_cons. pose proof (zlen_nonneg mo). lia. }
  assert (AP : args_pos (full k u w) (bare_of u) = args_pos k u + 6 * (10 - zlen (t_offs (n_top k)))).
  { unfold full, bare_of. rewrite re_args_pos, !zlen_heading. fold (bare_of u). rewrite ZF. lia. }
  assert (SP : seen_pos (full k u w) (bare_of u) = args_pos k u + 6 * (10 - zlen (t_offs (n_top k))) - 256).
  { unfold seen_pos. rewrite AP. lia. }
  assert (SQ : seen_pos k u = args_pos k u) by (unfold seen_pos; apply Z.mod_small; destruct (core_args k u) as (pre & post & _ & E); pose proof (zlen_nonneg pre); pose proof (zlen_nonneg (heading (n_top k) ++ f_hash u)); lia).
  assert (B' : bytes (full_data k u w)).
  { rewrite Sp. rewrite Ed in B. unfold bytes in *. rewrite !Forall_app in *. unfold heading, raw_head. rewrite !Forall_app.
    repeat split; try apply le_bytes; try apply raw_entries_bytes; tauto. }
  assert (ZD : zlen (full_data k u w) = 68 + zlen (f_hash u ++ form_payload k u) + 4) by (rewrite Sp, !zlen_app, zlen_heading, ZF, le_length; lia).
  assert (ZC : zlen (f_hash u ++ form_payload k u) < 65000).
  { rewrite Ed in L. rewrite !zlen_app in L. rewrite zlen_app. pose proof (zlen_nonneg (heading (n_top k))). pose proof (zlen_nonneg m). pose proof (zlen_nonneg (le 4 (zlen (f_approvals u)))). lia. }
  pose proof (ap_args _ _ _ _ Ap) as AA. unfold within in Wi. rewrite En in AA, Wi. destruct AA as (bs0 & Ea & Sb). rewrite Ea in Wi. destruct Wi as [W1 W2].
  change (@S.len Z) with (@zlen Z) in W1, W2. rewrite zlen_app, zlen_heading in W2. rewrite SQ in *.
  assert (NB : 0 <= zlen bs0) by apply zlen_nonneg.
  set (p := seen_pos (full k u w) (bare_of u) - match f_args u with ARaw _ => 0 | ANamed _ => 4 end).
  assert (Pp : 0 <= p <= 41) by (unfold p; destruct (f_args u); lia).
  destruct (here_slice (full_data k u w) p (zlen bs0)) as (bs & Hr & Lb); [lia|lia|unfold p in *; destruct (f_args u); lia|].
  set (t' := Transaction (x_hash t) (Payload (x_initiator (x_payload t)) (x_time (x_payload t)) (x_ttl (x_payload t)) (x_chain (x_payload t)) (x_pricing (x_payload t)) (Raw bs) (x_target (x_payload t)) (x_entry (x_payload t))) []).
  assert (Ap' : appears (full k u w) (bare_of u) (full_data k u w) t').
  { destruct Ap. constructor; cbn [t' bare_of re_signed x_hash x_payload x_initiator x_time x_ttl x_chain x_pricing x_target x_entry x_args x_approvals f_hash f_initiator f_time f_ttl f_chain f_price f_args f_target f_entry f_approvals]; auto.
    rewrite En. exists bs. split; [reflexivity|]. unfold seen_bytes in *. cbn [bare_of re_signed f_args]. unfold p in Hr. unfold bare_of in *. cbn [full re_top n_args].
    change (@S.len Z) with (@zlen Z) in *. destruct (f_args u); [|rewrite Z.sub_0_r in Hr]; split; try exact Hr; destruct Sb as [_ Sb]; lia. }
  assert (RR : exists lines', review (p_hash pf) x t' = Some lines' /\ In (xl "Args hash" (SD.Hex (p_hash pf bs))) lines').
  { unfold review, body_review in *. cbn [t' x_payload x_entry x_target x_args]. rewrite (ap_entry _ _ _ _ Ap), En in *. cbn [visible_entry] in *.
    destruct (x_target (x_payload t)) as [|i r|]; try discriminate R. rewrite Ea in R.
    destruct (custom_review (p_hash pf) x i (visible nm) (Raw bs0)) as [s|] eqn:C; [|discriminate R].
    destruct (custom_any _ _ _ _ _ bs _ C) as (s' & -> & I). eexists. split; [reflexivity|]. unfold frame. rewrite !in_app_iff. auto 6. }
  destruct RR as (lines' & R' & I'). exists (full_data k u w), (full k u w), (bare_of u), bs0, bs, p, lines'.
  split; [exact Bg'|]. split; [unfold full, bare_of; apply re_payload|]. split; [reflexivity|].
  split; [unfold full, full_tbl; rewrite bare_fields; cbn [re_top n_top t_offs offsets app]; eauto|].
  split; [exact Pp|]. split; [exact Hr|]. split; [exact Ea|]. split; [exact Lb|]. split; [|exact I'].
  assert (HV' : f_hash (bare_of u) = p_hash pf (form_payload (full k u w) (bare_of u))) by (unfold full, bare_of; rewrite re_payload; exact HV).
  assert (AC : acceptable (x_payload t') = true) by (unfold acceptable, complete, callable; cbn [t' x_payload x_entry]; rewrite (ap_entry _ _ _ _ Ap), En; reflexivity).
  exact (seen_yes pf x (full_data k u w) (full k u w) (bare_of u) t' Hh B' ltac:(lia) Bg' Ap' lines' HV' AC CS (or_introl R') EX).
Qed.
