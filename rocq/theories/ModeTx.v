(** Reviews of the same TransactionV1 in expert mode and in normal mode. *)
From Verif Require Import Base Zxlib Crypto Utils RuntimeArg Deploy DeployUI TxV1 TxV1UI Parser BaseFacts Spec SpecText SpecDeploy SpecTx SpecLook Exec ArgsFacts ReaderFacts TextFacts Shows DeployArgs SessionFacts ReviewFacts Demo TxFacts TxBody TxShow TxReview LookFacts LookTx.
Import S ST SD SX.

(** [a] is [b] with some lines left out. *)
Inductive sub {A} : list A -> list A -> Prop :=
  sub_nil b : sub [] b
| sub_take x a b : sub a b -> sub (x :: a) (x :: b)
| sub_skip x a b : sub a b -> sub a (x :: b).
Lemma sub_refl {A} (a : list A) : sub a a. Proof. induction a; constructor; auto. Qed.
Lemma sub_left {A} (c : list A) : forall a b, sub a b -> sub a (c ++ b).
Proof. induction c; intros; cbn; [auto | apply sub_skip; auto]. Qed.
Lemma sub_app {A} (a b c d : list A) : sub a b -> sub c d -> sub (a ++ c) (b ++ d).
Proof. intros H. revert c d. induction H; intros c d G; cbn [app]; [apply sub_left, G | apply sub_take; auto | apply sub_skip; auto]. Qed.
Lemma sub_map {A B} (f : A -> B) a b : sub a b -> sub (List.map f a) (List.map f b).
Proof. induction 1; cbn [List.map]; constructor; auto. Qed.
Lemma sub_places {A} (a b : list A) : sub a b -> exists f : nat -> nat,
  (forall i j, (i < j)%nat -> (j < List.length a)%nat -> (f i < f j)%nat) /\
  forall i, (i < List.length a)%nat -> (f i < List.length b)%nat /\ nth_error b (f i) = nth_error a i.
Proof.
  induction 1 as [b|x a b _ (f & M & N)|x a b _ (f & M & N)].
  - exists (fun i => i). split; cbn; intros; lia.
  - exists (fun i => match i with O => O | Datatypes.S k => Datatypes.S (f k) end). split.
    + intros [|i] [|j] Hi Hj; cbn [List.length] in *; try lia. apply -> Nat.succ_lt_mono. apply M; lia.
    + intros [|i] Hi; cbn [List.length] in *; [split; [lia|reflexivity]|]. destruct (N i) as [P Q]; [lia|]. split; [lia|exact Q].
  - exists (fun i => Datatypes.S (f i)). split; [intros i j Hi Hj; specialize (M i j Hi Hj); lia|].
    intros i Hi. destruct (N i Hi) as [P Q]. split; [cbn; lia | exact Q].
Qed.

Lemma op_sub H n l s : op_review H true n l = Some s -> exists r, op_review H false n l = Some r /\ sub r s.
Proof.
  unfold op_review. destruct (_ && _); [|discriminate].
  destruct n; try (intros E; exists s; split; [exact E | apply sub_refl]).
  cbn [op_lines]. cbv zeta. intros E.
  destruct (any_arg "Target" "target" l) as [tg|] eqn:T.
  2:{ destruct (has "source" l); cbn [app all] in E; [destruct (any_arg "From" "source" l)|]; discriminate E. }
  destruct (u512_arg "Amount" "amount" l) as [am|] eqn:Am.
  2:{ destruct (has "source" l); cbn [app all] in E; [destruct (any_arg "From" "source" l)|]; discriminate E. }
  destruct (any_arg "ID" "id" l) as [id|] eqn:I.
  2:{ destruct (has "source" l); cbn [app all] in E; [destruct (any_arg "From" "source" l)|]; discriminate E. }
  exists (lift_lines [tg; am]). split; [reflexivity|].
  destruct (has "source" l); cbn [app all] in E; [destruct (any_arg "From" "source" l) as [fr|]; [|discriminate E]|]; injection E as <-; cbn; repeat constructor.
Qed.
Lemma body_sub H p s : body_review H true p = Some s -> exists r, body_review H false p = Some r /\ sub r s.
Proof.
  unfold body_review. destruct (x_entry p) as [|name|n]; [discriminate| |].
  - destruct (x_target p) as [|t ?|]; try discriminate. unfold custom_review. cbv zeta.
    destruct t as [h|nm|h v|nm v]; try (intros E; exists s; split; [exact E | apply sub_refl]);
      (destruct v as [v|]; [|discriminate]; destruct (v =? _); [discriminate|]; intros E; injection E as <-; eexists; split; [reflexivity|]; cbn; repeat constructor).
  - destruct (x_target p); try discriminate. destruct (x_args p); [apply op_sub | discriminate].
Qed.
Lemma bare_sub H p s : bare_body H true p = Some s -> exists r, bare_body H false p = Some r /\ sub r s.
Proof.
  unfold bare_body. intros E. destruct (x_target p); try discriminate; (destruct (x_entry p); try (exists s; split; [exact E | apply sub_refl]));
    (destruct (x_args p); [apply op_sub in E; exact E | discriminate]).
Qed.
Lemma frame_sub t r s : sub r s -> sub (frame false t r) (frame true t s).
Proof.
  intros S. unfold frame. cbv zeta. cbn [app]. do 4 apply sub_take. apply sub_skip, sub_skip. apply sub_left. apply sub_app; [exact S|constructor].
Qed.

(** Two reviews of the same bytes, the lines of one among those of the other. *)
Lemma reviews_within pf data r s : xreviews pf false data r -> xreviews pf true data s -> sub r s ->
  exists w v (f : Z -> Z), tx_parse pf false data = Ret w /\ tx_parse pf true data = Ret v /\
    (forall i j, 0 <= i < j -> j < getNumItems false w -> f i < f j) /\
    forall i, 0 <= i < getNumItems false w -> 0 <= f i < getNumItems true v /\
      forall kl, tx_getItem pf false kl data w i = tx_getItem pf true kl data v (f i).
Proof.
  intros (w & Pw & Nw & Dw) (v & Pv & Nv & Dv) S. destruct (sub_places _ _ S) as (f & M & N).
  exists w, v, (fun i => Z.of_nat (f (Z.to_nat i))). split; [exact Pw|]. split; [exact Pv|]. rewrite Nw, Nv. unfold zlen. split.
  - intros i j Hij Hj. apply inj_lt. apply M; lia.
  - intros i Hi. destruct (N (Z.to_nat i)) as [B E]; [lia|]. split; [lia|]. intros kl.
    destruct (nth_error r (Z.to_nat i)) as [l|] eqn:R; [|apply nth_error_None in R; lia].
    destruct (Dw _ _ R kl) as ([ka va] & Ga & Ka & Ra). destruct (Dv _ _ E kl) as ([kb vb] & Gb & Kb & Rb).
    rewrite Z2Nat.id in Ga by lia. rewrite Ga, Gb. cbn [ikey ival] in *. rewrite (xrenders_fun _ _ _ _ _ Ra Rb). congruence.
Qed.

Lemma expert_covers_v1 pf t lines : hash32 (p_hash pf) -> good_transaction (p_hash pf) t ->
  (review (p_hash pf) true t = Some lines \/ bare_review (p_hash pf) true t = Some lines) ->
  xexpert_ok true (p_time pf) (x_payload t) -> before_args t < 256 ->
  exists w v (f : Z -> Z), tx_parse pf false (enc_v1 t) = Ret w /\ tx_parse pf true (enc_v1 t) = Ret v /\
    (forall i j, 0 <= i < j -> j < getNumItems false w -> f i < f j) /\
    forall i, 0 <= i < getNumItems false w -> 0 <= f i < getNumItems true v /\
      forall kl, tx_getItem pf false kl (enc_v1 t) w i = tx_getItem pf true kl (enc_v1 t) v (f i).
Proof.
  intros Hh G R X L. assert (XF : xexpert_ok false (p_time pf) (x_payload t)) by discriminate.
  destruct R as [R|R].
  - pose proof (v1_review pf true t lines Hh G R X L) as Vt. unfold review in R.
    destruct (body_review (p_hash pf) true (x_payload t)) as [s|] eqn:B; [|discriminate R]. some_inj R.
    destruct (body_sub _ _ _ B) as (r & Br & S).
    eapply reviews_within; [|exact Vt|apply frame_sub, S]. apply (v1_review pf false t _ Hh G); auto. unfold review. rewrite Br. reflexivity.
  - pose proof (v1_bare pf true t lines Hh G R X L) as Vt. unfold bare_review in R.
    destruct (bare_body (p_hash pf) true (x_payload t)) as [s|] eqn:B; [|discriminate R]. some_inj R.
    destruct (bare_sub _ _ _ B) as (r & Br & S).
    eapply reviews_within; [|exact Vt|apply frame_sub, S]. apply (v1_bare pf false t _ Hh G); auto. unfold bare_review. rewrite Br. reflexivity.
Qed.
