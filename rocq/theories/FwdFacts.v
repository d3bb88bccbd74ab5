(** Arguments on arbitrary bytes: the cursor moves forward unless a length is
    close to 2^32. *)
From Verif Require Import Base Zxlib Crypto Utils RuntimeArg Deploy DeployUI TxV1 TxV1UI Parser BaseFacts Spec SpecText SpecDeploy SpecTx SpecLayout Exec ArgsFacts ReaderFacts RangeFacts BindFacts.
Import S SX SL.

Lemma at_here e p bs : at_ e p bs <-> here (mem e) p bs.
Proof.
  unfold at_, here. rewrite slice_Some. split.
  - intros (a & b & E & L & _). exists a, b. split; [exact E|exact L].
  - intros (a & b & E & L). exists a, b. split; [exact E|]. split; [exact L|reflexivity].
Qed.
Lemma at_total e o n : wf e -> 0 <= o -> 0 <= n -> o + n <= blen e -> exists bs, at_ e o bs /\ zlen bs = n.
Proof.
  intros W Ho Hn L. rewrite (wf_len e W) in L. destruct (slice_total (mem e) o n) as (bs & Sl); [lia|lia|lia|].
  pose proof (slice_len _ _ _ _ Sl) as Z. exists bs. split; [|exact Z]. unfold at_. rewrite Z. exact Sl.
Qed.

(** ** Types *)
Definition mono {A} (p : P A) : Prop := forall e o a o', wf e -> 0 <= o <= blen e -> p e o = (Ret a, o') -> o <= o' <= blen e.
Lemma mono_ret {A} (a : A) : mono (ret a). Proof. intros e o b o' W I H. injection H as _ <-. lia. Qed.
Lemma mono_fail {A} c : mono (@fail A c). Proof. intros e o b o' W I H. discriminate H. Qed.
Lemma mono_undef {A} c : mono (@undef A c). Proof. intros e o b o' W I H. discriminate H. Qed.
Lemma mono_check b c : mono (check b c). Proof. unfold check. destruct b; [apply mono_ret|apply mono_fail]. Qed.
Lemma mono_bind {A B} (p : P A) (f : A -> P B) : mono p -> (forall a, mono (f a)) -> mono (bind p f).
Proof.
  intros Hp Hf e o b o' W I H. bx H a o1 H1. pose proof (Hp _ _ _ _ W I H1) as J. pose proof (Hf a e o1 b o' W ltac:(lia) H). lia.
Qed.
Lemma mono_u8 : mono readU8.
Proof.
  intros e o a o' W I H. pose proof (wf_max e W). apply readU8_inv in H; [|auto|unfold in16; lia]. destruct H as (_ & _ & L & ->). lia.
Qed.
Lemma mono_u32 : mono readU32.
Proof.
  intros e o a o' W I H. pose proof (wf_max e W). apply readU32_inv in H; [|auto|unfold in16; lia]. destruct H as (_ & _ & L & ->). lia.
Qed.
Create HintDb mono.
#[export] Hint Resolve mono_ret mono_fail mono_undef mono_check mono_u8 mono_u32 : mono.
Lemma mono_por it p q : mono p -> (forall i, mono (q i)) -> mono (por it p q).
Proof.
  intros Hp Hq e o a o' W I H. unfold por in H. bx H r o1 H1. unfold try in H1.
  destruct (p e o) as [[x|c|u] o2] eqn:E; [| |discriminate H1]; injection H1 as <- <-.
  - pose proof (Hp _ _ _ _ W I E). pose proof (Hq x e o2 a o' W ltac:(lia) H). lia.
  - bx H r2 o3 H2. destruct r2; discriminate H.
Qed.
#[export] Hint Resolve mono_por : mono.
Ltac mono :=
  match goal with
  | |- mono (bind _ _) => apply mono_bind; [mono | intros; mono]
  | |- mono (if ?x then _ else _) => destruct x; mono
  | |- mono (match ?x with _ => _ end) => destruct x; mono
  | _ => solve [eauto with mono]
  end.
Lemma mono_typebytes f : forall t it, mono (parse_additional_typebytes f t it).
Proof. induction f as [|f IH]; intros t it; cbn [parse_additional_typebytes]; mono. Qed.
Lemma type_moves it e o r o' : wf e -> in16 o -> get_type it e o = (Ret r, o') -> o + 1 <= o' <= blen e.
Proof.
  intros W I H. unfold get_type, check_runtime_type in H. bx H t o1 R. bx H u o2 C. bx H i o3 A. apply ret_inv in H. destruct H as [_ ->].
  apply check_inv in C. destruct C as [_ ->]. apply readU8_inv in R; auto. destruct R as (_ & _ & L & ->). unfold in16 in I.
  pose proof (mono_typebytes 3 t it e (o + 1) i o3 W ltac:(lia) A). lia.
Qed.

(** ** Items and arguments *)
Lemma bytes_inv e o len o' : wf e -> in16 o -> read_bytes e o = (Ret len, o') ->
  word len /\ at_ e o (le 4 len) /\ o' = u32 (o + 4 + len) /\ o' <= blen e /\ in16 o'.
Proof.
  intros W I H. unfold read_bytes in H. bx H l o1 R. bx H oo o2 G. bx H n o3 N. bx H u o4 C. bx H u2 o5 Ad. pinv.
  apply readU32_inv in R; auto. destruct R as (V & A & L & ->). pose proof (wf_max e W).
  split; [exact V|]. split; [exact A|]. unfold u16, u32, in16, word in *. lia.
Qed.
Lemma item_inv e o r o' : wf e -> in16 o -> parse_item e o = (Ret r, o') ->
  exists len, word len /\ at_ e o (le 4 len) /\ o' = u32 (o + 4 + len) /\ o' <= blen e /\ in16 o'.
Proof.
  intros W I H. unfold parse_item in H. bx H l o1 R. bx H oo o2 G. bx H n o3 N. bx H u o4 C. pinv.
  apply readU32_inv in R; auto. destruct R as (V & A & L & ->). pose proof (wf_max e W). exists l.
  split; [exact V|]. split; [exact A|]. unfold u16, u32, in16, word in *. lia.
Qed.
(** a length, and what it leads to *)
Lemma length_leads e o w o' : wf e -> in16 o -> word w -> at_ e o (le 4 w) -> o' = u32 (o + 4 + w) -> o' <= blen e ->
  2 ^ 32 - 65536 <= w \/ exists bs, at_ e o (lv bs) /\ o' = o + zlen (lv bs).
Proof.
  intros W I V A E L. destruct (Z_le_gt_dec (2 ^ 32 - 65536) w) as [G|G]; [left; exact G|right]. pose proof (wf_max e W).
  pose proof (at_bound _ _ _ W A) as Bd. rewrite le_length in Bd. cbn [Z.of_nat Pos.of_succ_nat Pos.succ] in Bd.
  assert (o' = o + 4 + w) by (unfold word, in16, u32 in *; lia). unfold word in V.
  destruct (item_split e o w W I V A ltac:(lia)) as (bs & Ab & Lb). exists bs. split; [exact Ab|]. rewrite zlen_lv, Lb. lia.
Qed.
Lemma arg_steps e o (p q : P unit) r : wf e -> in16 o ->
  (forall o1 r o2, in16 o1 -> p e o1 = (Ret r, o2) -> exists len, word len /\ at_ e o1 (le 4 len) /\ o2 = u32 (o1 + 4 + len) /\ o2 <= blen e /\ in16 o2) ->
  (forall o1 r o2, in16 o1 -> q e o1 = (Ret r, o2) -> exists len, word len /\ at_ e o1 (le 4 len) /\ o2 = u32 (o1 + 4 + len) /\ o2 <= blen e /\ in16 o2) ->
  forall o', bind p (fun _ => bind q (fun _ => bind (get_type 0) (fun _ => ret tt))) e o = (Ret r, o') ->
  o' <= blen e /\ in16 o' /\ (leap_at (mem e) o \/ exists a, at_ e o (raw_bytes a) /\ 1 <= zlen (r_ty a) /\ o' = o + zlen (raw_bytes a)).
Proof.
  intros W I Hp Hq o' H. pose proof (wf_max e W) as Mx. bx H r1 o1 P1. bx H r2 o2 Q1. bx H t o3 T. apply ret_inv in H. destruct H as [_ ->].
  destruct (Hp _ _ _ I P1) as (w & Vw & Aw & Ew & Lw & I1). destruct (Hq _ _ _ I1 Q1) as (w2 & Vw2 & Aw2 & Ew2 & Lw2 & I2).
  pose proof (type_moves _ _ _ _ _ W I2 T) as M. unfold in16 in *. split; [lia|]. split; [lia|].
  destruct (length_leads e o w o1 W I Vw Aw Ew Lw) as [G|(nm & An & En)].
  { left. exists w. split; [unfold word in Vw; lia|]. left. apply at_here. exact Aw. }
  destruct (length_leads e o1 w2 o2 W I1 Vw2 Aw2 Ew2 Lw2) as [G|(vl & Av & Ev)].
  { left. exists w2. split; [unfold word in Vw2; lia|]. right. exists nm. apply at_here. rewrite at_app. split; [exact An|]. rewrite <- En. exact Aw2. }
  right. destruct (at_total e o2 (o3 - o2) W ltac:(lia) ltac:(lia) ltac:(lia)) as (ty & At & Lt).
  exists (RawArg nm vl ty). unfold raw_bytes. cbn [r_name r_val r_ty]. split; [|split; [lia|rewrite !zlen_app; lia]].
  rewrite !at_app. split; [exact An|]. rewrite <- En. split; [exact Av|]. rewrite <- Ev. exact At.
Qed.
Lemma read_arg_steps e o r o' : wf e -> in16 o -> read_arg e o = (Ret r, o') ->
  o' <= blen e /\ in16 o' /\ (leap_at (mem e) o \/ exists a, at_ e o (raw_bytes a) /\ 1 <= zlen (r_ty a) /\ o' = o + zlen (raw_bytes a)).
Proof.
  intros W I H. unfold read_arg, read_clvalue, read_string in H.
  assert (X : forall o1 r o2, in16 o1 -> bind read_bytes (fun _ => ret tt) e o1 = (Ret r, o2) -> exists len, word len /\ at_ e o1 (le 4 len) /\ o2 = u32 (o1 + 4 + len) /\ o2 <= blen e /\ in16 o2).
  { intros o1 r1 o2 I1 B. bx B len q1 B1. apply ret_inv in B. destruct B as [_ ->]. exists len. exact (bytes_inv _ _ _ _ W I1 B1). }
  refine (arg_steps e o (bind read_bytes (fun _ => ret tt)) (bind read_bytes (fun _ => ret tt)) r W I X X o' _).
  bx H l1 q1 B1. bx H l2 q2 B2. bx H t q3 T. apply ret_inv in H. destruct H as [-> ->].
  rewrite (bind_Ret _ _ _ _ tt q1) by (rewrite (bind_Ret _ _ _ _ _ _ B1); reflexivity).
  rewrite (bind_Ret _ _ _ _ tt q2) by (rewrite (bind_Ret _ _ _ _ _ _ B2); reflexivity).
  rewrite (bind_Ret _ _ _ _ _ _ T). reflexivity.
Qed.
Lemma skip_arg_steps e o r o' : wf e -> in16 o -> skip_arg e o = (Ret r, o') ->
  o' <= blen e /\ in16 o' /\ (leap_at (mem e) o \/ exists a, at_ e o (raw_bytes a) /\ 1 <= zlen (r_ty a) /\ o' = o + zlen (raw_bytes a)).
Proof.
  intros W I H. exact (arg_steps e o parse_item parse_item r W I (fun o1 r o2 => item_inv e o1 r o2 W) (fun o1 r o2 => item_inv e o1 r o2 W) o' H).
Qed.

Lemma run_nil e o : wf e -> 0 <= o <= blen e -> run (mem e) 0 o o.
Proof.
  intros W I. exists []. split.
  - split; [|constructor]. apply at_here. destruct (at_total e o 0 W ltac:(lia) ltac:(lia) ltac:(lia)) as (bs & A & L).
    destruct bs; [exact A|]. rewrite zlen_cons in L. pose proof (zlen_nonneg bs). lia.
  - left. split; [reflexivity|]. unfold after. cbn. lia.
Qed.
Lemma run_cons e o a n q : wf e -> at_ e o (raw_bytes a) -> 1 <= zlen (r_ty a) -> run (mem e) n (o + zlen (raw_bytes a)) q -> run (mem e) (n + 1) o q.
Proof.
  intros W A T (l & [La Fl] & E). exists (a :: l).
  assert (Ea : after o (a :: l) = after (o + zlen (raw_bytes a)) l).
  { unfold after. cbn [map List.concat]. change (@S.len Z) with (@zlen Z). rewrite zlen_app. lia. }
  split.
  - split; [|constructor; assumption]. cbn [map List.concat]. apply at_here. rewrite at_app. split; [exact A|]. apply at_here. exact La.
  - rewrite Ea. change (@S.len raw_arg) with (@zlen raw_arg) in *. rewrite zlen_cons. destruct E as [[E1 E2]|[E1 E2]]; [left|right]; split; auto; lia.
Qed.
Lemma run_leap e o n q : wf e -> 0 <= o <= blen e -> 0 < n -> leap_at (mem e) o -> run (mem e) n o q.
Proof.
  intros W I N L. destruct (run_nil e o W I) as (l & La & [[E1 E2]|[E1 E2]]); exists l; split; auto; right.
  - rewrite E1, <- E2. auto.
  - pose proof (zlen_nonneg l). change (S.len l) with (zlen l) in E1. lia.
Qed.
Lemma args_run e (body : P unit) k : wf e ->
  (forall o r o', in16 o -> body e o = (Ret r, o') -> o' <= blen e /\ in16 o' /\
     (leap_at (mem e) o \/ exists a, at_ e o (raw_bytes a) /\ 1 <= zlen (r_ty a) /\ o' = o + zlen (raw_bytes a))) ->
  forall o r o', 0 <= o <= blen e -> iter_loop (R := unit) k (fun _ => bind body (fun _ => ret (Next tt))) tt e o = (Ret r, o') ->
  0 <= o' <= blen e /\ run (mem e) (Z.of_nat k) o o'.
Proof.
  intros W Hb. pose proof (wf_max e W) as Mx. induction k as [|k IH]; intros o r o' I H; cbn [iter_loop] in H.
  - injection H as _ <-. split; [lia|]. apply run_nil; auto.
  - bx H f o1 B. bx B u o2 C. apply ret_inv in B. destruct B as [-> ->].
    destruct (Hb o u o2 ltac:(unfold in16; lia) C) as (L & I2 & St). unfold in16 in I2.
    destruct (IH o2 r o' ltac:(lia) H) as [L' R]. split; [exact L'|]. replace (Z.of_nat (Datatypes.S k)) with (Z.of_nat k + 1) by lia.
    destruct St as [G|(a & A & T & ->)]; [apply run_leap; auto; lia|]. apply (run_cons _ _ _ _ _ W A T R).
Qed.

(** ** Whole readers *)
Definition calm (e : env) : Prop := blen e <= 65471 /\ no_leap (mem e).
Definition slack (a : bool) : Z := if a then 0 else 64.
(** starting (if [a]) and ending (if [b]) inside the buffer, otherwise at most 64 beyond *)
Definition fw {A} (a b : bool) (p : P A) : Prop :=
  forall e o r o', wf e -> calm e -> 0 <= o <= blen e + slack a -> p e o = (Ret r, o') -> o <= o' <= blen e + slack b.
Lemma fw_ret {A} a b (x : A) : Bool.le b a -> fw a b (ret x).
Proof. intros L e o r o' W C I H. injection H as _ <-. destruct a, b; cbn [slack] in *; cbn in L; try discriminate; lia. Qed.
Lemma fw_fail {A} a b c : fw a b (@fail A c). Proof. intros e o r o' W C I H. discriminate H. Qed.
Lemma fw_ask {A} a b (f : env -> A) : Bool.le b a -> fw a b (ask f).
Proof. intros L e o r o' W C I H. injection H as _ <-. destruct a, b; cbn [slack] in *; cbn in L; try discriminate; lia. Qed.
Lemma fw_get a b : Bool.le b a -> fw a b get_off.
Proof. intros L e o r o' W C I H. injection H as _ <-. destruct a, b; cbn [slack] in *; cbn in L; try discriminate; lia. Qed.
Lemma fw_check a b c d : Bool.le b a -> fw a b (check c d).
Proof. intros L. unfold check. destruct c; [apply fw_ret, L|apply fw_fail]. Qed.
Lemma fw_bind {A B} a m b (p : P A) (f : A -> P B) : fw a m p -> (forall x, fw m b (f x)) -> fw a b (bind p f).
Proof.
  intros Hp Hf e o r o' W C I H. bx H x o1 H1. pose proof (Hp _ _ _ _ W C I H1) as J.
  pose proof (Hf x e o1 r o' W C ltac:(lia) H). lia.
Qed.
Lemma fw_weak {A} a b (p : P A) : fw false b p -> fw a b p.
Proof. intros H e o r o' W C I E. apply (H e o r o' W C); [|exact E]. destruct a; cbn [slack] in *; lia. Qed.
Lemma fw_weak' {A} a b (p : P A) : fw a true p -> fw a b p.
Proof. intros H e o r o' W C I E. pose proof (H e o r o' W C I E). destruct b; cbn [slack] in *; lia. Qed.
Lemma fw_u8 : fw false true readU8.
Proof. intros e o r o' W [C _] I H. cbn [slack] in *. apply readU8_inv in H; [|auto|unfold in16; lia]. destruct H as (_ & _ & L & ->). lia. Qed.
Lemma fw_u16 : fw false true readU16.
Proof. intros e o r o' W [C _] I H. cbn [slack] in *. apply readU16_inv in H; [|auto|unfold in16; lia]. destruct H as (_ & _ & L & ->). lia. Qed.
Lemma fw_u32 : fw false true readU32.
Proof. intros e o r o' W [C _] I H. cbn [slack] in *. apply readU32_inv in H; [|auto|unfold in16; lia]. destruct H as (_ & _ & L & ->). lia. Qed.
Lemma fw_u64 : fw false true readU64.
Proof. intros e o r o' W [C _] I H. cbn [slack] in *. apply readU64_inv in H; [|auto|unfold in16; lia]. destruct H as (_ & _ & L & ->). lia. Qed.
Lemma fw_advance n : 0 <= n <= 64 -> fw true false (advance n).
Proof.
  intros N e o r o' W [C _] I H. cbn [slack] in *. unfold advance in H. bx H q o1 G. apply get_off_inv in G. destruct G as [-> ->].
  apply set_off_inv in H. subst o'. rewrite u16_small by lia. lia.
Qed.
Lemma fw_bytes : fw false true read_bytes.
Proof.
  intros e o r o' W [C N] I H. cbn [slack] in *. apply bytes_inv in H; [|auto|unfold in16; lia]. destruct H as (V & A & E & L & _).
  pose proof (N o r ltac:(apply at_here; exact A) V). pose proof (at_bound _ _ _ W A) as Bd. rewrite le_length in Bd. cbn [Z.of_nat Pos.of_succ_nat Pos.succ] in Bd.
  unfold word, u32 in *. lia.
Qed.
Lemma fw_type it : fw false true (get_type it).
Proof. intros e o r o' W [C _] I H. cbn [slack] in *. pose proof (type_moves it e o r o' W ltac:(unfold in16; lia) H). lia. Qed.
Lemma fw_loop {S R} n (body : S -> P (flow S R)) s a : (forall s, fw a a (body s)) -> fw a a (loop n body s).
Proof.
  intros Hb e o r o' W C I H. rewrite loop_iter in H. revert s o I H. generalize (Z.to_nat n). intros k.
  induction k as [|k IH]; intros s o I H; cbn [iter_loop] in H; [injection H as _ <-; lia|].
  bx H f o1 B. pose proof (Hb s e o f o1 W C I B). destruct f as [s'|x].
  - pose proof (IH s' o1 ltac:(lia) H). lia.
  - injection H as _ <-. lia.
Qed.
Lemma fw_loop' {S R} n (body : S -> P (flow S R)) s a b : (forall s, fw b b (body s)) -> Bool.le b a -> fw a b (loop n body s).
Proof.
  intros Hb L e o r o' W C I H. apply (fw_loop n body s b Hb e o r o' W C); [|exact H]. destruct a, b; cbn [slack] in *; cbn in L; try discriminate; lia.
Qed.
Create HintDb fwd.
#[export] Hint Resolve fw_fail fw_u8 fw_u16 fw_u32 fw_u64 fw_bytes fw_type : fwd.
#[export] Hint Extern 1 (fw _ _ (ret _)) => apply fw_ret; reflexivity : fwd.
#[export] Hint Extern 1 (fw _ _ (ask _)) => apply fw_ask; reflexivity : fwd.
#[export] Hint Extern 1 (fw _ _ get_off) => apply fw_get; reflexivity : fwd.
#[export] Hint Extern 1 (fw _ _ (check _ _)) => apply fw_check; reflexivity : fwd.
#[export] Hint Extern 1 (fw true false (advance _)) => apply fw_advance; lia : fwd.
Ltac fw :=
  match goal with
  | |- fw ?a ?b (bind _ _) => first [solve [apply (fw_bind a true b); [fw | intros; fw]] | apply (fw_bind a false b); [fw | intros; fw]]
  | |- fw _ _ (loop _ _ _) => apply fw_loop'; [intros; fw | reflexivity]
  | |- fw _ _ (let '_ := ?x in _) => destruct x; fw
  | |- fw _ _ (if ?x then _ else _) => destruct x; fw
  | |- fw _ _ (match ?x with _ => _ end) => destruct x; fw
  | _ => first [solve [eauto with fwd] | solve [apply fw_weak; eauto with fwd] | solve [apply fw_weak'; eauto with fwd] | solve [apply fw_weak, fw_weak'; eauto with fwd]]
  end.
Lemma fw_string : fw false true read_string. Proof. exact fw_bytes. Qed.
Lemma fw_field a b base fo : Bool.le b a -> fw a b (at_field base fo).
Proof. intros L. unfold at_field. apply (fw_bind a a b); [apply fw_get; destruct a; reflexivity|intros; apply fw_check, L]. Qed.
#[export] Hint Extern 1 (fw _ _ (at_field _ _)) => apply fw_field; reflexivity : fwd.
Lemma fw_offsets k : forall i, fw true true (read_field_offsets k i).
Proof. induction k as [|k IH]; intros i; cbn [read_field_offsets]; fw. Qed.
#[export] Hint Resolve fw_string fw_offsets : fwd.
Lemma fw_metadata : fw false true read_metadata. Proof. unfold read_metadata. fw. Qed.
#[export] Hint Resolve fw_metadata : fwd.
Lemma fw_hash : fw true false read_hash. Proof. apply fw_advance. lia. Qed.
Lemma fw_key : fw false false read_public_key. Proof. unfold read_public_key. fw. Qed.
#[export] Hint Resolve fw_hash fw_key : fwd.
Lemma fw_sig : fw false false read_signature. Proof. unfold read_signature. fw. Qed.
Lemma fw_bool : fw false true read_bool. Proof. unfold read_bool. fw. Qed.
#[export] Hint Resolve fw_sig fw_bool : fwd.
Lemma fw_version : fw false true read_entity_version. Proof. unfold read_entity_version. fw. Qed.
Lemma fw_runtime : fw false false read_runtime. Proof. unfold read_runtime. fw. Qed.
#[export] Hint Resolve fw_version fw_runtime : fwd.
Lemma fw_initiator m pm : fw false false (read_initiator_address m pm). Proof. unfold read_initiator_address. cbv zeta. fw. Qed.
#[export] Hint Resolve fw_initiator : fwd.
Lemma fw_pricing m pm : fw false false (read_pricing_mode m pm). Proof. unfold read_pricing_mode. cbv zeta. fw. Qed.
#[export] Hint Resolve fw_pricing : fwd.
Lemma fw_header m pm : fw false false (read_txV1_header m pm). Proof. unfold read_txV1_header, read_chain_name. cbv zeta. fw. Qed.
Lemma fw_fkey k : fw false true (read_field_key k). Proof. unfold read_field_key. fw. Qed.
Lemma fw_args : fw false true read_args. Proof. unfold read_args, read_arg, read_clvalue. fw. Qed.
Lemma fw_stored : fw false false read_stored. Proof. unfold read_stored, read_entity_address. fw. Qed.
#[export] Hint Resolve fw_header fw_fkey fw_args fw_stored : fwd.
Lemma fw_target : fw false false read_target. Proof. unfold read_target. fw. Qed.
Lemma fw_approvals : fw false false read_txV1_approvals. Proof. unfold read_txV1_approvals. fw. Qed.
#[export] Hint Resolve fw_target fw_approvals : fwd.
Lemma fw_sanity a ep t : fw true true (check_sanity_native_transfer a ep t).
Proof.
  intros e o r o' W [C _] I H. cbn [slack] in *. unfold check_sanity_native_transfer in H. bx H s o1 G. apply get_off_inv in G. destruct G as [-> ->].
  cbv zeta in H. bx H u o2 K. bx H u' o3 K'. apply set_off_inv in H. subst o'. rewrite u16_small by lia. lia.
Qed.
#[export] Hint Resolve fw_sanity : fwd.
Lemma fw_entry a t : fw false true (read_entry_point a t). Proof. unfold read_entry_point. cbv zeta. fw. Qed.
Lemma fw_scheduling : fw false true read_scheduling. Proof. unfold read_scheduling. fw. Qed.
Lemma fw_approvals_rest k : fw false false (loop (R := unit) k (fun _ => read_public_key ;; read_signature ;; ret (Next tt)) tt ;; ret (u8 k)).
Proof. fw. Qed.
