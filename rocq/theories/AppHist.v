(** Histories: invariants of executions from power-on. *)
From Verif Require Import Base Zxlib Crypto Utils RuntimeArg Deploy DeployUI TxV1 TxV1UI Parser BaseFacts Spec Exec ArgsFacts ReaderFacts SpecText TextFacts Demo SpecApp App AppFacts.

(** * Vocabulary *)
(** a command that is looked at: the PIN is validated and no review is on screen *)
Definition seen (x : entry) : option (list Z) :=
  match x with (Apdu bs true, st, _) => match pending st with None => Some bs | Some _ => None end | _ => None end.
Definition seen_with (f : list Z -> bool) (x : entry) : bool :=
  match seen x with Some bs => f bs | None => false end.
(** an entry that does nothing: while a review is on screen only the buttons count *)
Definition ignored (s : app) (x : entry) : Prop := exists e, x = (e, s, NoReply).
(** the payloads accepted since the last initial chunk *)
Definition refused (rp : reply) : bool :=
  match rp with Status _ sw => (sw =? SA.no_session) || (sw =? SA.too_long) | _ => false end.
Definition collect (acc : list Z) (x : entry) : list Z :=
  match seen x with
  | Some bs => if SA.initial bs then [] else if SA.chunk bs && negb (refused (snd x)) then acc ++ SA.payload bs else acc
  | None => acc
  end.
Definition sent (tr : list entry) : list Z := fold_left collect tr [].
(** the path carried by the last command that carries one *)
Definition last_path (tr : list entry) : option (list Z) :=
  fold_left (fun acc x => match seen x with Some bs => if SA.has_path bs then Some (SA.path bs) else acc | None => acc end) tr None.

Lemma sent_snoc tr x : sent (tr ++ [x]) = collect (sent tr) x.
Proof. unfold sent. rewrite fold_left_app. reflexivity. Qed.
Lemma last_path_snoc tr x : last_path (tr ++ [x]) =
  match seen x with Some bs => if SA.has_path bs then Some (SA.path bs) else last_path tr | None => last_path tr end.
Proof. unfold last_path. rewrite fold_left_app. reflexivity. Qed.

(** * Kinds *)
Lemma kind_seen bs pin k : kind_of bs pin = k ->
  match k with
  | KOther => pin = false \/ (SA.address bs = false /\ SA.initial bs = false /\ SA.chunk bs = false)
  | KAddr => pin = true /\ SA.address bs = true /\ SA.initial bs = false /\ SA.chunk bs = false
  | KInit => pin = true /\ SA.address bs = false /\ SA.initial bs = true /\ SA.chunk bs = false
  | KChunk l => pin = true /\ SA.address bs = false /\ SA.initial bs = false /\ SA.chunk bs = true /\ SA.last_chunk bs = l
  | KBad => pin = true /\ SA.address bs = false /\ SA.initial bs = false /\ SA.chunk bs = false
  end.
Proof.
  intros <-. unfold kind_of. destruct pin; cbn [negb]; [|left; reflexivity].
  assert (SA.address bs = true -> SA.initial bs = false /\ SA.chunk bs = false).
  { unfold SA.address, SA.initial, SA.chunk, SA.signing. destruct (SA.command bs); cbn [andb]; [|discriminate].
    intros H. replace (SA.ins bs) with 1 by lia. auto. }
  destruct (SA.address bs) eqn:A; [tauto|].
  assert (SA.initial bs = true -> SA.chunk bs = false).
  { unfold SA.initial, SA.chunk. destruct (SA.signing bs); [|discriminate]. destruct (SA.p2 bs =? 0); [|discriminate]. cbn [andb]. lia. }
  destruct (SA.initial bs) eqn:Ei; [tauto|].
  destruct (SA.chunk bs) eqn:C.
  - split; [reflexivity|]. split; [reflexivity|]. split; [reflexivity|]. split; [reflexivity|].
    unfold SA.chunk, SA.last_chunk in *. destruct (SA.signing bs && (SA.p2 bs =? 0)); [reflexivity|discriminate].
  - destruct (SA.signing bs && (SA.p2 bs =? 0)); auto.
Qed.
Lemma has_path_kind bs pin : match kind_of bs pin with
  | KAddr | KInit => SA.has_path bs = (20 <=? zlen (data_of bs))
  | KOther => pin = false \/ SA.has_path bs = false
  | _ => SA.has_path bs = false end.
Proof.
  pose proof (kind_seen bs pin _ eq_refl) as K. unfold SA.has_path. change (S.len (SA.payload bs)) with (zlen (data_of bs)).
  destruct (kind_of bs pin).
  - destruct K as [->|(-> & -> & _)]; auto.
  - destruct K as (_ & -> & -> & _). reflexivity.
  - destruct K as (_ & -> & -> & _). reflexivity.
  - destruct K as (_ & -> & -> & _). reflexivity.
  - destruct K as (_ & -> & -> & _). reflexivity.
Qed.

(** * Frames *)
Lemma wapp_frame d bs s s1 : wapp d bs s s1 ->
  tx_initialized s1 = tx_initialized s /\ hdPath s1 = hdPath s /\ answer s1 = answer s /\
  expert_mode s1 = expert_mode s /\ pending s1 = pending s /\
  exists b n, buf_append (ram_size d) (flash_size d) (bufs s) (data_of bs) = (b, n) /\ bufs s1 = b.
Proof.
  intros [b n A _|b n h A _ _ _].
  - repeat split. exists b, n. split; [exact A|reflexivity].
  - destruct (tpw d (set_bufs b s)) as (? & ? & ? & ? & ? & ? & ?). repeat split; try assumption.
    exists b, n. split; assumption.
Qed.
Lemma wpar_frame d s s1 : wpar d s s1 ->
  tx_initialized s1 = tx_initialized s /\ hdPath s1 = hdPath s /\ answer s1 = answer s /\
  expert_mode s1 = expert_mode s /\ pending s1 = pending s /\ bufs s1 = bufs s.
Proof. intros [_|h _ _]; [repeat split|]. destruct (tpw d s) as (? & ? & ? & ? & ? & ? & ?). repeat split; assumption. Qed.

(** what a command does to the path, the mode, the buffers and the screen *)
Lemma act_frame d s bs pin s' rp : act d s bs pin s' rp -> pending s = None -> device_ok d -> buf_ok d (bufs s) ->
  expert_mode s' = expert_mode s /\ buf_ok d (bufs s') /\
  hdPath s' = (if pin && SA.has_path bs then SA.path bs else hdPath s) /\
  match rp with Signed _ _ => False | NoReply => pending s' <> None | Status _ sw => pending s' = None /\ 0 <= sw < 65536 end.
Proof.
  intros A P D B. pose proof (has_path_kind bs pin) as HP. pose proof (kind_seen bs pin _ eq_refl) as KS.
  assert (RB : buf_ok d (bufs (reset_bufs s))).
  { destruct B as [? ? ? ? ?], D as [_ ? ? ?]. constructor; cbn; auto; lia. }
  assert (BA : forall b n, buf_append (ram_size d) (flash_size d) (bufs s) (data_of bs) = (b, n) -> buf_ok d b)
    by (intros b n E; apply append_ok in E; auto; tauto).
  destruct A as [data sw K Hs|K|K L|K L PO|K L PO F|a K L PO F P1|a K L PO F P1|K L|K L PO|f K L PO F|l K Ei|l b n K Ei In A Nz|b K Ei In A
    |b t K Ei In A T|b e K Ei In A T|b K Ei In A T|b e K Ei In A T|l b n e K Ei In A F Nz T|s1 K Ei In W|s1 e K Ei In W F T|s1 s2 e K Ei In W Wp V|s1 s2 K Ei In W Wp V];
  rewrite K in HP, KS; cbn beta iota in HP, KS;
  try (destruct KS as (-> & KS); cbn [andb]).
  - replace (pin && SA.has_path bs) with false by (destruct HP as [-> | ->]; [|rewrite andb_false_r]; reflexivity).
    split; [reflexivity|]. split; [exact B || exact RB|]. split; [reflexivity|]. split; [exact P|]. lia.
  - rewrite HP. split; [reflexivity|]. split; [exact B || exact RB|]. split; [reflexivity|]. split; [exact P|]. unfold INVALIDP1P2; lia.
  - rewrite HP. replace (20 <=? _) with false by lia. split; [reflexivity|]. split; [exact B || exact RB|]. split; [reflexivity|]. split; [exact P|]. unfold WRONG_LENGTH; lia.
  - rewrite HP. replace (20 <=? _) with true by lia. split; [reflexivity|]. split; [exact B || exact RB|]. split; [reflexivity|]. split; [exact P|]. unfold DATA_INVALID; lia.
  - rewrite HP. replace (20 <=? _) with true by lia. split; [reflexivity|]. split; [exact B || exact RB|]. split; [reflexivity|]. split; [exact P|]. unfold EXECUTION_ERROR; lia.
  - rewrite HP. replace (20 <=? _) with true by lia. split; [reflexivity|]. split; [exact B || exact RB|]. split; [reflexivity|]. split; [exact P|]. unfold SW_OK; lia.
  - rewrite HP. replace (20 <=? _) with true by lia. split; [reflexivity|]. split; [exact B|]. split; [reflexivity|]. discriminate.
  - rewrite HP. replace (20 <=? _) with false by lia. split; [reflexivity|]. split; [exact B || exact RB|]. split; [reflexivity|]. split; [exact P|]. unfold WRONG_LENGTH; lia.
  - rewrite HP. replace (20 <=? _) with true by lia. split; [reflexivity|]. split; [exact B || exact RB|]. split; [reflexivity|]. split; [exact P|]. unfold DATA_INVALID; lia.
  - rewrite HP. replace (20 <=? _) with true by lia. split; [reflexivity|]. split; [exact B || exact RB|]. split; [reflexivity|]. split; [exact P|]. unfold SW_OK; lia.
  - rewrite HP. split; [reflexivity|]. split; [exact B || exact RB|]. split; [reflexivity|]. split; [exact P|]. unfold TX_NOT_INITIALIZED; lia.
  - rewrite HP. split; [reflexivity|]. split; [exact (BA _ _ A)|]. split; [reflexivity|]. split; [exact P|]. unfold OUTPUT_BUFFER_TOO_SMALL; lia.
  - rewrite HP. split; [reflexivity|]. split; [exact (BA _ _ A)|]. split; [reflexivity|]. split; [exact P|]. unfold SW_OK; lia.
  - rewrite HP. destruct (tpe d (set_init false (set_bufs b s))) as (? & ? & Ph & Bu & ? & Ex & Pe).
    split; [exact Ex|]. split; [cbn; rewrite Bu; exact (BA _ _ A)|]. split; [exact Ph | discriminate].
  - rewrite HP. destruct (tpe d (set_init false (set_bufs b s))) as (? & ? & Ph & Bu & ? & Ex & Pe).
    split; [exact Ex|]. split; [cbn; rewrite Bu; exact (BA _ _ A)|]. split; [exact Ph|]. split; [rewrite Pe; exact P| unfold DATA_INVALID; lia].
  - rewrite HP. destruct (tpm (set_bufs b s)) as (? & ? & Ph & Bu & ? & Ex & Pe).
    split; [exact Ex|]. split; [cbn; rewrite Bu; exact (BA _ _ A)|]. split; [exact Ph | discriminate].
  - rewrite HP. destruct (tpm (set_bufs b s)) as (? & ? & Ph & Bu & ? & Ex & Pe).
    split; [exact Ex|]. split; [cbn; rewrite Bu; exact (BA _ _ A)|]. split; [exact Ph|]. split; [rewrite Pe; exact P| unfold DATA_INVALID; lia].
  - rewrite HP. destruct (tpw d (set_bufs b s)) as (? & ? & Ph & Bu & ? & Ex & Pe).
    split; [exact Ex|]. split; [cbn; rewrite Bu; exact (BA _ _ A)|]. split; [exact Ph|]. split; [cbn; rewrite Pe; exact P| unfold EXECUTION_ERROR; lia].
  - rewrite HP. destruct (wapp_frame _ _ _ _ W) as (_ & Ph & _ & Ex & Pe & b & n & A & Bu).
    split; [exact Ex|]. split; [rewrite Bu; exact (BA _ _ A)|]. split; [exact Ph|]. split; [rewrite Pe; exact P| unfold SW_OK; lia].
  - rewrite HP. destruct (wapp_frame _ _ _ _ W) as (_ & Ph & _ & Ex & Pe & b & n & A & Bu).
    destruct (tpw d (set_init false s1)) as (? & ? & Ph' & Bu' & ? & Ex' & Pe').
    split; [rewrite Ex'; exact Ex|]. split; [rewrite Bu'; cbn; rewrite Bu; exact (BA _ _ A)|]. split; [rewrite Ph'; exact Ph|]. split; [rewrite Pe'; cbn; rewrite Pe; exact P| unfold EXECUTION_ERROR; lia].
  - rewrite HP. destruct (wapp_frame _ _ _ _ W) as (_ & Ph & _ & Ex & Pe & b & n & A & Bu).
    destruct (wpar_frame _ _ _ Wp) as (? & Ph' & ? & Ex' & Pe' & Bu').
    split; [rewrite Ex'; exact Ex|]. split; [rewrite Bu'; cbn; rewrite Bu; exact (BA _ _ A)|]. split; [rewrite Ph'; exact Ph|]. split; [rewrite Pe'; cbn; rewrite Pe; exact P| unfold EXECUTION_ERROR; lia].
  - rewrite HP. destruct (wapp_frame _ _ _ _ W) as (_ & Ph & _ & Ex & Pe & b & n & A & Bu).
    destruct (wpar_frame _ _ _ Wp) as (? & Ph' & ? & Ex' & Pe' & Bu').
    split; [cbn; rewrite Ex'; exact Ex|]. split; [cbn; rewrite Bu'; cbn; rewrite Bu; exact (BA _ _ A)|]. split; [cbn; rewrite Ph'; exact Ph | discriminate].
Qed.

(** * Steps that are not commands *)
Lemma step_other d s e s' rp : step d s e = Ret (s', rp) ->
  (exists bs pin, e = Apdu bs pin /\ pending s = None /\ act d s bs pin s' rp) \/
  (exists x, e = Expert x /\ pending s = None /\ s' = set_expert x s /\ rp = NoReply) \/
  (pending s = None /\ s' = s /\ rp = NoReply /\ (e = Reject \/ exists ok, e = Approve ok)) \/
  (pending s <> None /\ s' = s /\ rp = NoReply /\ ((exists bs pin, e = Apdu bs pin) \/ exists x, e = Expert x)) \/
  (exists r, pending s = Some r /\ s' = set_pending None s /\
     ((e = Reject /\ rp = Status [] COMMAND_NOT_ALLOWED) \/
      (exists ok, e = Approve ok /\ r = RAddr /\ rp = Status (answer s) SW_OK) \/
      (e = Approve false /\ r <> RAddr /\ rp = Status [] SIGN_VERIFY_ERROR) \/
      (e = Approve true /\ r <> RAddr /\ app_sign d s = Ret rp))).
Proof.
  intros H. destruct (pending s) as [r|] eqn:P.
  - right. right. right. unfold step in H. rewrite P in H. destruct e as [bs pin|ok| |x].
    + injection H as <- <-. left. repeat split; [discriminate|]. left; eauto.
    + right. exists r. split; [reflexivity|].
      destruct r; try (destruct ok; [destruct (app_sign d s) eqn:A; try discriminate|]); injection H as <- <-;
      (split; [reflexivity|]); right; try (left; eauto; fail); right; try (left; repeat split; discriminate); right; repeat split; discriminate.
    + injection H as <- <-. right. exists r. repeat split. left. auto.
    + injection H as <- <-. left. repeat split; [discriminate|]. right; eauto.
  - destruct e as [bs pin|ok| |x].
    + left. exists bs, pin. repeat split. apply step_act; auto.
    + unfold step in H. rewrite P in H. injection H as <- <-. right. right. left. repeat split. right; eauto.
    + unfold step in H. rewrite P in H. injection H as <- <-. right. right. left. repeat split. left; auto.
    + unfold step in H. rewrite P in H. injection H as <- <-. right. left. exists x. auto.
Qed.
Lemma sign_reply d s rp : app_sign d s = Ret rp -> (exists pre, rp = Signed (hdPath s) pre) \/ rp = Status [] SIGN_VERIFY_ERROR.
Proof.
  unfold app_sign. cbv zeta. match goal with |- context [match ?x with Some _ => _ | None => _ end] => destruct x as [m|] end; [|discriminate].
  destruct (sign_preimage s m) as [pre|e|u]; intros H; try discriminate; injection H as <-; eauto.
Qed.

(** * Invariants *)
Lemma reach_buf d s tr : device_ok d -> reach d s tr -> buf_ok d (bufs s).
Proof.
  intros D R. pattern s, tr. revert s tr R. apply (reach_ind d).
  - apply boot_buf; auto.
  - intros s tr e s' rp R IH K H.
    destruct (step_other _ _ _ _ _ H) as [(bs & pin & -> & P & A)|[(x & -> & P & -> & ->)|[(P & -> & _)|[(P & -> & _)|(r & P & -> & _)]]]]; auto.
    destruct (act_frame _ _ _ _ _ _ A P D IH) as (_ & X & _). exact X.
Qed.

(** the review on screen was opened by a command, and nothing happened since *)
Definition opened (d : device) (s : app) (tr : list entry) : Prop :=
  pending s <> None -> exists tr0 bs pin st mid,
    tr = tr0 ++ (Apdu bs pin, st, NoReply) :: mid /\ pending st = None /\
    reach d st tr0 /\ act d st bs pin s NoReply /\ Forall (ignored s) mid.
Lemma reach_opened d s tr : device_ok d -> reach d s tr -> opened d s tr.
Proof.
  intros D R. pattern s, tr. revert s tr R. apply (reach_ind d).
  - intros P. elim P. reflexivity.
  - intros s tr e s' rp R IH K H P'. pose proof (reach_buf _ _ _ D R) as B.
    destruct (step_other _ _ _ _ _ H) as [(bs & pin & -> & P & A)|[(x & -> & P & -> & ->)|[(P & -> & _)|[(P & -> & -> & _)|(r & P & -> & _)]]]].
    + destruct (act_frame _ _ _ _ _ _ A P D B) as (_ & _ & _ & Y).
      destruct rp; [destruct Y as [Y _]; congruence | contradiction |].
      exists tr, bs, pin, s, []. repeat split; auto.
    + elim P'. exact P.
    + elim P'. exact P.
    + destruct (IH P') as (tr0 & bs & pin & st & mid & -> & Ps & R0 & A & F).
      exists tr0, bs, pin, st, (mid ++ [(e, s, NoReply)]). rewrite <- app_assoc. repeat split; auto.
      apply Forall_app; split; [exact F|]. constructor; [exists e; reflexivity | constructor].
    + elim P'. reflexivity.
Qed.

(** the review a command opens *)
Lemma act_opens d s bs pin s' r : act d s bs pin s' NoReply -> pending s = None -> pending s' = Some r ->
  match r with
  | RAddr => exists a, pin = true /\ SA.address bs = true /\ SA.p1 bs <> 0 /\ 20 <= zlen (data_of bs) /\
      fill_address d (SA.path bs) = Ret a /\ answer s' = a /\ hdPath s' = SA.path bs /\ path_ok (SA.path bs) = true
  | RTx t => pin = true /\ SA.last_chunk bs = true /\ SA.ins bs = 2 /\ tx_initialized s = true /\ tx_initialized s' = false /\
      tx_parse (plat d) (expert_mode s') (tx_data (bufs s')) = Ret t /\
      exists s1, bufs s1 = bufs s' /\ s' = set_pending (Some (RTx t)) (tx_parse_effect d s1) /\ expert_mode s1 = expert_mode s'
  | RMsg => pin = true /\ SA.last_chunk bs = true /\ SA.ins bs = 3 /\ tx_initialized s = true /\
      parser_parse_message (tx_data (bufs s')) = Ret tt /\ 
      exists s1, bufs s1 = bufs s' /\ s' = set_pending (Some RMsg) (tx_parse_message_effect s1) /\ ccontent (ctx s1) = ccontent (ctx s)
  | RWasm => pin = true /\ SA.last_chunk bs = true /\ SA.ins bs = 4 /\ tx_initialized s = true /\ tx_initialized s' = false /\
      tx_validate_wasm d s' = Ret tt
  end.
Proof.
  intros A P E. pose proof (kind_seen bs pin _ eq_refl) as KS. remember NoReply as rp.
  destruct A as [data sw K Hs|K|K L|K L PO|K L PO F|a K L PO F P1|a K L PO F P1|K L|K L PO|f K L PO F|l K Ei|l b n K Ei In A Nz|b K Ei In A
    |b t K Ei In A T|b e K Ei In A T|b K Ei In A T|b e K Ei In A T|l b n e K Ei In A F Nz T|s1 K Ei In W|s1 e K Ei In W F T|s1 s2 e K Ei In W Wp V|s1 s2 K Ei In W Wp V];
  try discriminate; rewrite K in KS; cbn beta iota in KS; injection E as <-.
  - exists a. destruct KS as (-> & KS & _). repeat split; auto.
  - destruct KS as (-> & _ & _ & _ & KS). destruct (tpe d (set_init false (set_bufs b s))) as (I1 & ? & Ph & Bu & ? & Ex & Pe).
    split; [reflexivity|]. split; [exact KS|]. split; [exact In|]. split; [exact Ei|]. split; [exact I1|].
    cbn [expert_mode bufs set_pending]. rewrite Ex, Bu. split; [exact T|].
    exists (set_init false (set_bufs b s)). auto.
  - destruct KS as (-> & _ & _ & _ & KS). destruct (tpm (set_bufs b s)) as (I1 & ? & Ph & Bu & ? & Ex & Pe).
    split; [reflexivity|]. split; [exact KS|]. split; [exact In|]. split; [exact Ei|].
    cbn [bufs set_pending]. rewrite Bu. split; [exact T|]. exists (set_bufs b s). auto.
  - destruct KS as (-> & _ & _ & _ & KS). destruct (wpar_frame _ _ _ Wp) as (I1 & _).
    split; [reflexivity|]. split; [exact KS|]. split; [exact In|]. split; [exact Ei|]. split; [exact I1|]. exact V.
Qed.
