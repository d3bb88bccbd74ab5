(** Witnesses for the readers and the texts. *)
From Verif Require Import Base Zxlib Crypto Utils RuntimeArg BaseFacts Spec Exec ArgsFacts ReaderFacts Demo.
Import S.

(** Tuple2(ByteArray 32, U8): the length 32 is taken for a type tag.
    Tuple2(ByteArray 5, ByteArray 7): only 7 of the 11 bytes are consumed. *)
Lemma descriptor_refuted :
  (exists t e, wf e /\ one_level t = true /\ at_ e 0 (enc_type t) /\
               fst (get_type 0 e 0) = Fail parser_unexpected_type) /\
  (exists t e it o', wf e /\ one_level t = true /\ at_ e 0 (enc_type t) /\
               get_type 0 e 0 = (Ret (tag t, it), o') /\ o' < zlen (enc_type t)).
Proof.
  split.
  - exists (CTuple2 (CByteArray 32) (Prim 3)), (demo_env (enc_type (CTuple2 (CByteArray 32) (Prim 3)))).
    split; [apply wf_demo; reflexivity|]. repeat split; reflexivity.
  - exists (CTuple2 (CByteArray 5) (CByteArray 7)),
           (demo_env (enc_type (CTuple2 (CByteArray 5) (CByteArray 7)))).
    eexists _, _. split; [apply wf_demo; reflexivity|]. repeat split; reflexivity.
Qed.

From Verif Require Import SpecText TextFacts TxV1UI.
Import ST.

Lemma hex_addresses_differ H a b x :
  (forall y, zlen (H y) = 32) -> bytes a -> bytes b -> zlen a = 32 -> zlen b = 32 ->
  printBytes H a = Ret x -> printBytes H b = Ret x -> a = b.
Proof.
  intros Hh Ba Bb La Lb Ea Eb. rewrite printBytes_ok in Ea, Eb by (auto; lia).
  apply (cep57_inj (H a) (H b)); auto. congruence.
Qed.

Lemma hex_decodes h bs : bytes bs -> unhex (cep57 h bs) = Some bs /\ zlen (cep57 h bs) = 2 * zlen bs.
Proof. intros B; split; [apply unhex_cep57; auto | apply zlen_cep57]. Qed.

(** 1,11,... and 11,1,... have the same decimal digits. *)
Lemma addresses_refuted :
  exists a b e1 e2 it, bytes a /\ bytes b /\ zlen a = 32 /\ zlen b = 32 /\ a <> b /\
    wf e1 /\ wf e2 /\ at_ e1 0 a /\ at_ e2 0 b /\
    fst (show_hash_decimal 0 e1 0) = Ret it /\ fst (show_hash_decimal 0 e2 0) = Ret it.
Proof.
  set (a := 1 :: 11 :: repeat 7 30). set (b := 11 :: 1 :: repeat 7 30).
  exists a, b, (demo_env a), (demo_env b). eexists.
  split; [apply bytesb_ok; reflexivity|]. split; [apply bytesb_ok; reflexivity|].
  split; [reflexivity|]. split; [reflexivity|]. split; [discriminate|].
  split; [apply wf_demo; reflexivity|]. split; [apply wf_demo; reflexivity|].
  split; [reflexivity|]. split; [reflexivity|]. split; reflexivity.
Qed.

Lemma paging_refuted :
  exists outlen s, 1 < outlen /\ s <> [] /\ pages outlen s 0 (Z.to_nat (snd (page outlen s 0))) <> s.
Proof.
  exists 2, (repeat 65 256). split; [lia|]. split; [discriminate|]. vm_compute. discriminate.
Qed.
