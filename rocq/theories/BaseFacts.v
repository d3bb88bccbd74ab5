(** General facts about the base layer: monad inversion, loops, memory. *)
From Coq Require Export Lia ZifyBool ZifyNat ZifyN.
From Verif Require Export Base.
Ltac Zify.zify_post_hook ::= Z.div_mod_to_equations.

(** * Monad *)
Lemma bind_ret {A B} (a : A) (f : A -> P B) e o : bind (ret a) f e o = f a e o.
Proof. reflexivity. Qed.

Lemma bind_Ret {A B} (p : P A) (f : A -> P B) e o a o' :
  p e o = (Ret a, o') -> bind p f e o = f a e o'.
Proof. unfold bind; intros ->; reflexivity. Qed.

Lemma bind_Fail {A B} (p : P A) (f : A -> P B) e o x o' :
  p e o = (Fail x, o') -> bind p f e o = (Fail x, o').
Proof. unfold bind; intros ->; reflexivity. Qed.

Lemma bind_inv {A B} (p : P A) (f : A -> P B) e o b o'' :
  bind p f e o = (Ret b, o'') -> exists a o', p e o = (Ret a, o') /\ f a e o' = (Ret b, o'').
Proof.
  unfold bind; destruct (p e o) as [[a | x | u] o'] eqn:E; intros H; try discriminate.
  exists a, o'; auto.
Qed.

Lemma bind_ext {A B} (p q : P A) (f g : A -> P B) e o :
  p e o = q e o -> (forall a o', p e o = (Ret a, o') -> f a e o' = g a e o') ->
  bind p f e o = bind q g e o.
Proof.
  unfold bind; intros E H; rewrite <- E.
  destruct (p e o) as [[a | x | u] o'] eqn:Ep; auto.
Qed.

Lemma bind_assoc {A B C} (p : P A) (f : A -> P B) (g : B -> P C) e o :
  bind (bind p f) g e o = bind p (fun a => bind (f a) g) e o.
Proof. unfold bind; destruct (p e o) as [[a | x | u] o']; reflexivity. Qed.

Lemma check_inv b x e o r o' : check b x e o = (Ret r, o') -> b = true /\ o' = o.
Proof. unfold check; destruct b; cbv [ret fail]; intros H; inversion H; auto. Qed.

Lemma require_inv b x e o r o' : require b x e o = (Ret r, o') -> b = true /\ o' = o.
Proof. unfold require; destruct b; cbv [ret undef]; intros H; inversion H; auto. Qed.

Lemma ret_inv {A} (a b : A) e o o' : ret a e o = (Ret b, o') -> b = a /\ o' = o.
Proof. cbv [ret]; intros H; inversion H; auto. Qed.

Lemma ask_inv {A} (f : env -> A) e o a o' : ask f e o = (Ret a, o') -> a = f e /\ o' = o.
Proof. cbv [ask]; intros H; inversion H; auto. Qed.

Lemma get_off_inv e o a o' : get_off e o = (Ret a, o') -> a = o /\ o' = o.
Proof. cbv [get_off]; intros H; inversion H; auto. Qed.

Lemma set_off_inv x e o a o' : set_off x e o = (Ret a, o') -> o' = u16 x.
Proof. cbv [set_off]; intros H; inversion H; auto. Qed.

Lemma advance_inv n e o a o' : advance n e o = (Ret a, o') -> o' = u16 (o + n).
Proof. cbv [advance bind get_off set_off]; intros H; inversion H; auto. Qed.

Lemma mem_at_inv i e o a o' : mem_at i e o = (Ret a, o') -> rd (mem e) i = Some a /\ o' = o.
Proof. unfold mem_at; destruct (rd (mem e) i); intros H; inversion H; auto. Qed.

Lemma mem_slice_inv i n e o a o' :
  mem_slice i n e o = (Ret a, o') -> slice (mem e) i n = Some a /\ o' = o.
Proof. unfold mem_slice; destruct (slice (mem e) i n); intros H; inversion H; auto. Qed.

Lemma lift_inv {A} (r : outcome A) e o a o' : lift r e o = (Ret a, o') -> r = Ret a /\ o' = o.
Proof. cbv [lift]; intros H; inversion H; auto. Qed.

Lemma try_inv {A} (p : P A) e o r o' :
  try p e o = (Ret r, o') ->
  match r with inl a => p e o = (Ret a, o') | inr x => p e o = (Fail x, o') end.
Proof.
  unfold try; destruct (p e o) as [[a | x | u] o1]; intros H; inversion H; auto.
Qed.

(** Take apart one hypothesis [p e o = (Ret _, _)] completely. *)
Ltac pinv1 :=
  match goal with
  | H : bind _ _ _ _ = (Ret _, _) |- _ =>
      let a := fresh "a" in let o := fresh "o" in let H1 := fresh "H" in let H2 := fresh "H" in
      apply bind_inv in H; destruct H as (a & o & H1 & H2)
  | H : check _ _ _ _ = (Ret _, _) |- _ => apply check_inv in H; destruct H as [H ?]; subst
  | H : require _ _ _ _ = (Ret _, _) |- _ => apply require_inv in H; destruct H as [H ?]; subst
  | H : ret _ _ _ = (Ret _, _) |- _ => apply ret_inv in H; destruct H; subst
  | H : fail _ _ _ = (Ret _, _) |- _ => discriminate H
  | H : undef _ _ _ = (Ret _, _) |- _ => discriminate H
  | H : ask _ _ _ = (Ret _, _) |- _ => apply ask_inv in H; destruct H; subst
  | H : get_off _ _ = (Ret _, _) |- _ => apply get_off_inv in H; destruct H; subst
  | H : set_off _ _ _ = (Ret _, _) |- _ => apply set_off_inv in H; subst
  | H : advance _ _ _ = (Ret _, _) |- _ => apply advance_inv in H; subst
  | H : mem_at _ _ _ = (Ret _, _) |- _ => apply mem_at_inv in H; destruct H as [H ?]; subst
  | H : mem_slice _ _ _ _ = (Ret _, _) |- _ => apply mem_slice_inv in H; destruct H as [H ?]; subst
  | H : lift _ _ _ = (Ret _, _) |- _ => apply lift_inv in H; destruct H as [H ?]; subst
  end.
Ltac pinv := repeat pinv1.

(** * Loops *)
Fixpoint iter_loop {S R} (n : nat) (body : S -> P (flow S R)) (s : S) : P (flow S R) :=
  match n with
  | O => ret (Next s)
  | Datatypes.S k =>
      bind (body s) (fun f => match f with Next s' => iter_loop k body s' | Done r => ret (Done r) end)
  end.

Lemma iter_loop_plus {S R} (a b : nat) (body : S -> P (flow S R)) s e o :
  iter_loop (a + b) body s e o =
  bind (iter_loop a body s)
       (fun f => match f with Next s' => iter_loop b body s' | Done r => ret (Done r) end) e o.
Proof.
  revert s e o; induction a as [|a IH]; intros s e o; [reflexivity|].
  change (Datatypes.S a + b)%nat with (Datatypes.S (a + b)); cbn [iter_loop].
  unfold bind at 1 2 3.
  destruct (body s e o) as [[f | x | u] o']; auto.
  destruct f as [s' | r]; [apply IH | reflexivity].
Qed.

Lemma loop_pos_iter {S R} (p : positive) (body : S -> P (flow S R)) s e o :
  loop_pos p body s e o = iter_loop (Pos.to_nat p) body s e o.
Proof.
  revert s e o; induction p as [p IH | p IH | ]; intros s e o.
  - rewrite Pos2Nat.inj_xI.
    replace (2 * Pos.to_nat p)%nat with (Pos.to_nat p + Pos.to_nat p)%nat by lia.
    cbn [loop_pos iter_loop]. apply bind_ext; [reflexivity|].
    intros [s' | r] o' _; [|reflexivity].
    rewrite iter_loop_plus. apply bind_ext; [apply IH|].
    intros [s'' | r] o'' _; [apply IH | reflexivity].
  - rewrite Pos2Nat.inj_xO.
    replace (2 * Pos.to_nat p)%nat with (Pos.to_nat p + Pos.to_nat p)%nat by lia.
    rewrite iter_loop_plus. apply bind_ext; [apply IH|].
    intros [s'' | r] o'' _; [apply IH | reflexivity].
  - change (Pos.to_nat 1) with 1%nat; cbn [loop_pos iter_loop].
    unfold bind. destruct (body s e o) as [[[s' | r] | x | u] o']; reflexivity.
Qed.

Lemma loop_iter {S R} (n : Z) (body : S -> P (flow S R)) s e o :
  loop n body s e o = iter_loop (Z.to_nat n) body s e o.
Proof. destruct n as [|p|p]; [reflexivity | apply loop_pos_iter | reflexivity]. Qed.

(** * Lists and memory *)
Lemma zlen_nonneg {A} (l : list A) : 0 <= zlen l.
Proof. unfold zlen; lia. Qed.
Lemma zlen_app {A} (a b : list A) : zlen (a ++ b) = zlen a + zlen b.
Proof. unfold zlen; rewrite app_length; lia. Qed.
Lemma zlen_cons {A} (x : A) l : zlen (x :: l) = 1 + zlen l.
Proof. unfold zlen; cbn [List.length]; lia. Qed.
Lemma zlen_nil {A} : zlen (@nil A) = 0.
Proof. reflexivity. Qed.
Lemma zlen_map {A B} (f : A -> B) l : zlen (List.map f l) = zlen l.
Proof. unfold zlen; rewrite map_length; reflexivity. Qed.

Lemma list_eqb_eq a b : list_eqb a b = true <-> a = b.
Proof.
  revert b; induction a as [|x a IH]; intros [|y b]; cbn [list_eqb]; split; intros H;
    try discriminate; auto.
  - apply andb_true_iff in H; destruct H as [H1 H2].
    apply Z.eqb_eq in H1; apply IH in H2; congruence.
  - inversion H; subst; rewrite Z.eqb_refl; apply IH; reflexivity.
Qed.
Lemma list_eqb_refl a : list_eqb a a = true.
Proof. apply list_eqb_eq; reflexivity. Qed.
Lemma list_eqb_neq a b : list_eqb a b = false <-> a <> b.
Proof. rewrite <- list_eqb_eq; destruct (list_eqb a b); split; congruence. Qed.

Lemma slice_Some m o n bs :
  slice m o n = Some bs <->
  exists pre post, m = pre ++ bs ++ post /\ zlen pre = o /\ zlen bs = n.
Proof.
  unfold slice; split.
  - destruct (_ && _) eqn:E; intros H; inversion H; subst; clear H.
    exists (firstn (Z.to_nat o) m), (skipn (Z.to_nat n) (skipn (Z.to_nat o) m)).
    rewrite firstn_skipn, firstn_skipn; split; auto.
    unfold zlen in *; rewrite !firstn_length, skipn_length; lia.
  - intros (pre & post & -> & H1 & H2).
    pose proof (zlen_nonneg pre); pose proof (zlen_nonneg bs); pose proof (zlen_nonneg post).
    rewrite !zlen_app.
    destruct (_ && _) eqn:E; [|exfalso; lia]. f_equal.
    rewrite skipn_app, skipn_all2 by (unfold zlen in *; lia).
    replace (Z.to_nat o - List.length pre)%nat with O by (unfold zlen in *; lia).
    cbn [skipn app].
    rewrite firstn_app, firstn_all2 by (unfold zlen in *; lia).
    replace (Z.to_nat n - List.length bs)%nat with O by (unfold zlen in *; lia).
    cbn [firstn]; rewrite app_nil_r; reflexivity.
Qed.

Lemma slice_len m o n bs : slice m o n = Some bs -> zlen bs = n.
Proof. intros H; apply slice_Some in H; destruct H as (? & ? & ? & ? & ?); auto. Qed.

Lemma slice_bounds m o n bs : slice m o n = Some bs -> 0 <= o /\ 0 <= n /\ o + n <= zlen m.
Proof.
  unfold slice; destruct (_ && _) eqn:E; intros H; inversion H; lia.
Qed.

Lemma slice_total m o n : 0 <= o -> 0 <= n -> o + n <= zlen m -> exists bs, slice m o n = Some bs.
Proof. intros H1 H2 H3; unfold slice; destruct (_ && _) eqn:E; [eauto | lia]. Qed.

Lemma rd_slice m i b : rd m i = Some b <-> slice m i 1 = Some [b].
Proof.
  unfold rd; split.
  - destruct (_ && _) eqn:E; intros H; [|discriminate].
    apply nth_error_split in H; destruct H as (l1 & l2 & -> & Hl).
    apply slice_Some; exists l1, l2; repeat split; unfold zlen; cbn [List.length]; lia.
  - intros H; apply slice_Some in H; destruct H as (pre & post & -> & H1 & H2).
    rewrite zlen_app, zlen_app, H2.
    pose proof (zlen_nonneg pre); pose proof (zlen_nonneg post).
    destruct (_ && _) eqn:E; [|exfalso; lia].
    rewrite nth_error_app2 by (unfold zlen in *; lia).
    replace (Z.to_nat i - List.length pre)%nat with O by (unfold zlen in *; lia); reflexivity.
Qed.

Lemma rd_total m i : 0 <= i < zlen m -> exists b, rd m i = Some b.
Proof.
  intros H; unfold rd; destruct (_ && _) eqn:E; [|lia].
  destruct (nth_error m (Z.to_nat i)) eqn:N; eauto.
  apply nth_error_None in N; unfold zlen in *; lia.
Qed.

Lemma rd_bounds m i b : rd m i = Some b -> 0 <= i < zlen m.
Proof. unfold rd; destruct (_ && _) eqn:E; [lia | discriminate]. Qed.

Definition byte (b : Z) : Prop := 0 <= b < 256.
Definition bytes (l : list Z) : Prop := Forall byte l.

Lemma bytes_app a b : bytes (a ++ b) <-> bytes a /\ bytes b.
Proof. unfold bytes; apply Forall_app. Qed.

Lemma rd_byte m i b : bytes m -> rd m i = Some b -> byte b.
Proof.
  intros Hm H; apply rd_slice, slice_Some in H; destruct H as (pre & post & -> & _ & _).
  rewrite !bytes_app in Hm; destruct Hm as (_ & Hb & _); inversion Hb; auto.
Qed.

Lemma slice_bytes m o n bs : bytes m -> slice m o n = Some bs -> bytes bs.
Proof.
  intros Hm H; apply slice_Some in H; destruct H as (pre & post & -> & _ & _).
  rewrite !bytes_app in Hm; tauto.
Qed.

(** A slice of a longer buffer: same bytes. *)
Lemma slice_ext m post o n bs : slice m o n = Some bs -> slice (m ++ post) o n = Some bs.
Proof.
  intros H; apply slice_Some in H; destruct H as (a & b & -> & H1 & H2).
  apply slice_Some; exists a, (b ++ post); rewrite <- !app_assoc; auto.
Qed.
Lemma rd_ext m post i b : rd m i = Some b -> rd (m ++ post) i = Some b.
Proof. intros H; apply rd_slice; apply slice_ext; apply rd_slice; auto. Qed.

(** * The context the parser runs in: buffer length is the number of bytes,
      below 2^16, bytes are bytes. *)
Record wf (e : env) : Prop := {
  wf_len : blen e = zlen (mem e);
  wf_max : blen e < 65536;
  wf_bytes : bytes (mem e);
  wf_hash : forall x, zlen (hash e x) = 32;
  wf_hashb : forall x, bytes (hash e x) }.
