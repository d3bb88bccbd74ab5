(** Where the handling of raw WASM can leave the buffer; the item function
    the screens call. *)
From Verif Require Import Base Zxlib Crypto Utils RuntimeArg Deploy DeployUI TxV1 TxV1UI Parser BaseFacts Spec SpecText SpecDeploy SpecTx SpecLayout Exec ArgsFacts ReaderFacts TextFacts RangeFacts BindFacts OklFacts BindCases SafeFacts TxInv Demo AppSign TxAccept DeploySafe Screen.
Import S SX SL.

(** the parts of the header of an accepted raw-WASM deploy *)
Lemma wasm_header_inv e h o : wf e -> readHeader_wasm e 0 = (Ret h, o) ->
  pubkeyLen h + 56 + 4 <= blen e /\ (header_length_deploy h < 65504 -> header_length_deploy h + 32 < blen e).
Proof.
  intros W H. pose proof (wf_max e W) as M. pose proof (header_len_range h) as Hr.
  unfold readHeader_wasm in H. pinv.
  match goal with X : match ?r with inl _ => _ | inr _ => _ end e _ = _ |- _ => destruct r as [?|y]; [discriminate|]; destruct (_ && _); [|discriminate]; injection X as <- _ end.
  match goal with X : read_payment _ _ = _ |- _ => rename X into RP end.
  match goal with X : read_header_counts _ _ _ = _ |- _ => rename X into RC end.
  split.
  - unfold read_header_counts in RC. pinv.
    match goal with X : index_headerpart_deploy _ header_deps _ _ = _ |- _ => apply index_inv in X; destruct X as (q & -> & _ & ->) end.
    match goal with X : readU32 _ (u16 _) = _ |- _ => apply readU32_inv in X; [|assumption|apply u16_range]; destruct X as (_ & At & _ & _) end.
    apply at_bound in At; auto. rewrite le_length in At. unfold pubkeyLen in *. cbn [pubkeytype] in *.
    rewrite u16_small in At by (destruct (_ =? 2); lia). destruct (_ =? 2); lia.
  - intros L. change BLAKE2B_256_SIZE with 32 in RP. rewrite u16_small in RP by lia.
    apply payment_inv in RP; [|assumption|unfold in16; lia]. destruct RP as (_ & _ & At & _). apply at_bound in At; auto.
    change (zlen [0]) with 1 in At. lia.
Qed.

Lemma wasm_parse_undef pf x w data u : hash32 (p_hash pf) -> bytes data -> zlen data < 65536 ->
  parser_parse_wasm pf x w data = Undef u -> exists p n, long_word data p n /\ (auction_word data p \/ w = false).
Proof.
  intros Hh B L H. unfold parser_parse_wasm in H. cbv zeta in H. pose proof (zlen_nonneg data). rewrite u16_small in H by lia.
  destruct (zlen data =? 0) eqn:Z0; [discriminate|].
  set (e := ctx_of pf x w 40 data (zlen data)) in *. pose proof (wf_ctx pf x w 40 data Hh B L) as W. fold e in W.
  assert (I : in16 0) by (unfold in16; lia). unfold readHeader_wasm in H.
  assert (M : exists b, rd (mem e) 0 = Some b).
  { destruct data as [|b r]; [discriminate|]. exists b. reflexivity. }
  destruct M as (b & Rb). rewrite (step_mem_at _ b) in H by exact Rb.
  ub H c1 o1 R1 I1. ub H h o2 R2 I2. ub H o o3 R3 I3. ub H n o4 R4 I4. ub H c2 o5 R5 I5. ub H c3 o6 R6 I6. ub H pay o7 R7 I7. ub H t o8 R8 I8.
  apply undef_first in H; [|assumption|assumption|rng|].
  - unfold try in H. pose proof (session_undef e t o8) as SU. destruct (parseDeployItem_session t e o8) as [[a|c|u'] o9]; try discriminate.
    destruct (SU u' W I8 eq_refl) as (_ & p & k & Lw & Q). exists p, k. split; [exact Lw|].
    destruct Q as [Q|[Q _]]; auto.
  - intros [a|c]; [saf|]. destruct (_ && _); saf.
Qed.

Lemma wasm_validate_undef pf x w data h : hash32 (p_hash pf) -> bytes data -> zlen data < 65536 ->
  parser_parse_wasm pf x w data = Ret h -> forall y o,
  (exists u, fst (parser_validate_wasm h (ctx_of pf x y 40 data (zlen data)) o) = Undef u) <-> 65504 <= header_length_deploy h.
Proof.
  intros Hh B L H y o. unfold parser_parse_wasm in H. cbv zeta in H. pose proof (zlen_nonneg data). rewrite u16_small in H by lia.
  destruct (zlen data =? 0) eqn:Z0; [discriminate|].
  set (e := ctx_of pf x w 40 data (zlen data)) in *. pose proof (wf_ctx pf x w 40 data Hh B L) as W. fold e in W.
  destruct (readHeader_wasm e 0) as [r o'] eqn:R. cbn [fst] in H. subst r. apply wasm_header_inv in R; auto. destruct R as [_ R].
  change (blen e) with (zlen data) in R. pose proof (header_len_range h). unfold parser_validate_wasm. cbv zeta. rewrite step_ask.
  set (e' := ctx_of pf x y 40 data (zlen data)). split.
  - intros (u & Hu). destruct (Z_lt_le_dec (header_length_deploy h) 65504) as [K|K]; [exfalso|exact K]. specialize (R K).
    destruct (slice_total (mem e') 0 (header_length_deploy h)) as (hd & S1); try (change (mem e') with data; lia).
    destruct (slice_total (mem e') (header_length_deploy h) 32) as (dh & S2); try (change (mem e') with data; lia).
    rewrite (step_slice _ _ hd) in Hu by exact S1. rewrite (step_slice _ _ dh) in Hu by exact S2. unfold check in Hu. destruct (list_eqb _ _); discriminate.
  - intros K. exists OobRead. unfold bind, mem_slice. destruct (slice (mem e') 0 _) as [hd|]; [|reflexivity].
    cbv beta iota delta [ret]. replace (slice (mem e') (header_length_deploy h) 32) with (@None (list Z)); [reflexivity|].
    symmetry. unfold slice. change (mem e') with data. replace (_ && _) with false; [reflexivity|lia].
Qed.

Lemma wasm_items_defined pf x w data h : hash32 (p_hash pf) -> bytes data -> zlen data < 65536 ->
  parser_parse_wasm pf x w data = Ret h -> header_length_deploy h < 65504 ->
  forall y idx o u, fst (parser_getWasmItem h idx (ctx_of pf x y 40 data (zlen data)) o) <> Undef u.
Proof.
  intros Hh B L H K y idx o u. unfold parser_parse_wasm in H. cbv zeta in H. pose proof (zlen_nonneg data). rewrite u16_small in H by lia.
  destruct (zlen data =? 0) eqn:Z0; [discriminate|].
  set (e := ctx_of pf x w 40 data (zlen data)) in *. pose proof (wf_ctx pf x w 40 data Hh B L) as W. fold e in W.
  destruct (readHeader_wasm e 0) as [r o'] eqn:R. cbn [fst] in H. subst r. apply wasm_header_inv in R; auto. destruct R as [R1 R2].
  change (blen e) with (zlen data) in R1, R2. specialize (R2 K). pose proof (header_len_range h).
  set (e' := ctx_of pf x y 40 data (zlen data)). unfold parser_getWasmItem.
  assert (PK : 0 <= pubkeyLen h <= 34) by (unfold pubkeyLen; destruct (_ =? 2); lia).
  destruct (idx =? 0).
  - destruct (slice_total (mem e') (header_length_deploy h) 32) as (dh & S2); try (change (mem e') with data; lia).
    rewrite (step_slice _ _ dh) by exact S2. discriminate.
  - destruct (idx =? 1); [|discriminate]. 
    destruct (slice_total (mem e') (pubkeyLen h + 8 + 8 + 8) 32) as (bh & S2); try (change (mem e') with data; lia).
    unfold index_headerpart_deploy. rewrite !bind_assoc, step_set_off by lia. rewrite ?bind_assoc, step_get_off, ?bind_assoc, step_ask.
    change (blen e') with (zlen data). rewrite step_check by lia. rewrite step_get_off, (step_slice _ _ bh) by exact S2. discriminate.
Qed.

(** * The item function of the screens (C54) *)
Lemma i8_small x : 0 <= x < 128 -> i8 x = x.
Proof. intros. unfold i8. rewrite u8_small by lia. cbv zeta. replace (x <? 128) with true by lia. reflexivity. Qed.
Lemma screen_small pf x kl data t idx it : 0 <= idx < getNumItems x t -> idx < 128 ->
  tx_getItem pf x kl data t idx = Ret it -> screen_item pf x kl data t idx = ZItem it.
Proof.
  intros I L G. unfold screen_item. rewrite i8_small by lia. cbv zeta. replace (_ || _) with false by lia. rewrite G. reflexivity.
Qed.
Lemma screen_deploy pf x kl data v idx : hash32 (p_hash pf) -> bytes data -> zlen data < 65535 ->
  tx_parse pf x (0 :: data) = Ret (TDeploy v) -> 0 <= idx < getNumItems x (TDeploy v) ->
  exists it, tx_getItem pf x kl (0 :: data) (TDeploy v) idx = Ret it /\ screen_item pf x kl (0 :: data) (TDeploy v) idx = ZItem it.
Proof.
  intros Hh B L P I. destruct (shown_all pf x kl data v Hh B L P) as [N V]. destruct (proj1 (V idx) I) as (it & G).
  exists it. split; [exact G|]. apply screen_small; [exact I| |exact G]. destruct x; lia.
Qed.
Lemma screen_v1 pf x kl data v idx : zlen data < 65535 ->
  tx_parse pf x (1 :: data) = Ret (TV1 v) -> 0 <= idx < getNumItems x (TV1 v) -> idx < 128 ->
  exists it, tx_getItem pf x kl (1 :: data) (TV1 v) idx = Ret it /\ screen_item pf x kl (1 :: data) (TV1 v) idx = ZItem it.
Proof.
  intros L P I K. destruct (v1_shown_all pf x kl data v L P) as [N V]. destruct (proj1 (V idx) I) as (it & G).
  exists it. split; [exact G|]. apply screen_small; assumption.
Qed.
Lemma screen_big pf x kl data t idx : 128 <= idx < 256 -> screen_item pf x kl data t idx = ZNoData.
Proof.
  intros I. unfold screen_item, i8. rewrite u8_small by lia. cbv zeta. replace (idx <? 128) with false by lia.
  replace (_ || _) with true by lia. reflexivity.
Qed.
