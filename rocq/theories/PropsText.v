(** Properties C20 to C24: how values are written on the screen. *)
From Verif Require Import Base Zxlib Crypto Utils RuntimeArg DeployUI TxV1UI BaseFacts Spec SpecText Exec ArgsFacts ReaderFacts TextFacts Demo WitBasic.
Import S ST.

(** ** C20  Different contract addresses look different *)
(** True of the hexadecimal rendering (deploys): *)
Theorem C20_hex_addresses_differ_partial :
  forall H a b x, (forall y, zlen (H y) = 32) -> bytes a -> bytes b -> zlen a = 32 -> zlen b = 32 ->
  printBytes H a = Ret x -> printBytes H b = Ret x -> a = b.
Proof. exact hex_addresses_differ. Qed.
Print Assumptions C20_hex_addresses_differ_partial.

(** False of the decimal rendering used for TransactionV1 by-hash targets:
    two different addresses with the same text. *)
Theorem C20_addresses_refuted :
  exists a b e1 e2 it, bytes a /\ bytes b /\ zlen a = 32 /\ zlen b = 32 /\ a <> b /\
    wf e1 /\ wf e2 /\ at_ e1 0 a /\ at_ e2 0 b /\
    fst (show_hash_decimal 0 e1 0) = Ret it /\ fst (show_hash_decimal 0 e2 0) = Ret it.
Proof. exact addresses_refuted. Qed.
Print Assumptions C20_addresses_refuted.

(** ** C21  Amounts are displayed exactly *)
Theorem C21_amount_exact :
  forall b bs e o, wf e -> at_ e o (b :: bs) -> zlen bs <= 64 -> o + zlen (b :: bs) < blen e ->
  exists s, display_runtimeArgMotes TAG_U512 (zlen (b :: bs)) e o = (Ret (VPaged s), o)
            /\ motes_text (value bs) s.
Proof. exact show_u512. Qed.
Print Assumptions C21_amount_exact.

Theorem C21_amounts_differ : forall n m s, motes_text n s -> motes_text m s -> n = m.
Proof. exact motes_text_inj. Qed.
Print Assumptions C21_amounts_differ.

Example C21_case :
  let e := demo_env [3; 21; 205; 91; 8] in
  wf e /\ at_ e 0 (3 :: [21; 205; 91]) /\
  fst (display_runtimeArgMotes TAG_U512 4 e 0) = Ret (VPaged (text "6 016 277 motes")).
Proof. cbv zeta. split; [apply wf_demo; reflexivity|]. split; reflexivity. Qed.

(** ** C22  TTL is displayed exactly *)
Theorem C22_ttl_exact :
  forall ms e o, wf e -> at_ e o (le 8 ms) -> 0 <= ms < 2 ^ 64 ->
  if ms / 1000 <? 29 * 86400
  then exists s, show_ttl e o = (Ret (mkItem (text "Ttl") (VPaged s)), o + 8) /\ ttl_text (ms / 1000) s
  else show_ttl e o = (Fail parser_unexpected_value, o + 8).
Proof. exact show_ttl_at. Qed.
Print Assumptions C22_ttl_exact.

Theorem C22_ttls_differ : forall v w s, ttl_text v s -> ttl_text w s -> v = w.
Proof. exact ttl_text_inj. Qed.
Print Assumptions C22_ttls_differ.

Example C22_case :
  let e := demo_env (le 8 90061999) in
  wf e /\ at_ e 0 (le 8 90061999) /\
  fst (show_ttl e 0) = Ret (mkItem (text "Ttl") (VPaged (text "1day 1h 1m 1s"))).
Proof. cbv zeta. split; [apply wf_demo; reflexivity|]. split; reflexivity. Qed.

(** ** C23  Checksummed hex is the right bytes *)
Theorem C23_hex_exact :
  forall bs e i n o, wf e -> at_ e i bs -> n = zlen bs -> zlen bs <= 49 ->
  parser_printBytes i n e o = (Ret (VPaged (cep57 (hash e bs) bs)), o).
Proof. exact parser_printBytes_at. Qed.
Print Assumptions C23_hex_exact.

Theorem C23_hex_decodes :
  forall h bs, bytes bs -> unhex (cep57 h bs) = Some bs /\ zlen (cep57 h bs) = 2 * zlen bs.
Proof. exact hex_decodes. Qed.
Print Assumptions C23_hex_decodes.

Theorem C23_hex_differ : forall h1 h2 a b, bytes a -> bytes b -> cep57 h1 a = cep57 h2 b -> a = b.
Proof. exact cep57_inj. Qed.
Print Assumptions C23_hex_differ.

Example C23_case :
  let e := demo_env [10; 171; 205] in
  wf e /\ at_ e 1 [171; 205] /\
  exists s, fst (parser_printBytes 1 2 e 0) = Ret (VPaged s) /\ unhex s = Some [171; 205].
Proof.
  cbv zeta. split; [apply wf_demo; reflexivity|]. split; [reflexivity|].
  eexists. split; reflexivity.
Qed.

(** ** C24  Paging shows the whole value *)
(** [pages w s 0 n]: the first [n] pages concatenated. The page counter has 8
    bits: proved for values of at most 255 pages. *)
Theorem C24_paging_partial :
  forall outlen s, 1 < outlen -> s <> [] -> zlen s <= 255 * (outlen - 1) ->
  snd (page outlen s 0) = (zlen s + outlen - 2) / (outlen - 1) /\
  pages outlen s 0 (Z.to_nat (snd (page outlen s 0))) = s.
Proof. exact pages_all. Qed.
Print Assumptions C24_paging_partial.

Theorem C24_paging_refuted :
  exists outlen s, 1 < outlen /\ s <> [] /\ pages outlen s 0 (Z.to_nat (snd (page outlen s 0))) <> s.
Proof. exact paging_refuted. Qed.
Print Assumptions C24_paging_refuted.

Example C24_case :
  let s := text "0123456789abcdefghij" in
  zlen s <= 255 * (8 - 1) /\ snd (page 8 s 0) = 3 /\ fst (page 8 s 2) = text "efghij".
Proof. cbv zeta. split; [intros X; discriminate X|]. split; reflexivity. Qed.
