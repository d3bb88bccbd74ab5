(** Property C77: what is signed is named. *)
From Verif Require Import Base Zxlib Deploy Parser BaseFacts Spec SpecText SpecDeploy SpecRaw SpecBlind Shows ReviewFacts Demo WitDeploy BlindFacts WitBlind.

(** ** C77  No deploy is signed blind *)
(** A deploy with a specified review names the contract or code it runs and its
    arguments or their hash; in normal mode a recognised delegation does not
    show where it is carried out.  Missing for the full claim, which is false
    ([C77_code_refuted], [C77_call_refuted]): argument lists in which amount,
    delegator or validator has another type, and those of C10 and C11. *)
Theorem C77_named_partial :
  forall pf x h p i n r s,
  hash32 (p_hash pf) -> SD.good_header h -> S.len (SD.p_amount p) <= 64 -> SD.good_session i ->
  SD.h_bodyhash h = p_hash pf (SD.enc_payment p ++ SD.enc_session i) -> SR.trailing x i n r ->
  let data := SD.enc_header h ++ p_hash pf (SD.enc_header h) ++ SD.enc_payment p ++ SD.enc_session i ++ r in
  bytes data -> zlen data < 65535 ->
  SD.session_review (p_hash pf) x i = Some s -> expert_ok x (p_time pf) h ->
  exists lines, reviews pf x (0 :: data) lines /\ SB.names (p_hash pf) x i lines.
Proof. exact named_review. Qed.
Print Assumptions C77_named_partial.
(** The others, exactly: these are accepted, and no line is shown beyond those
    of [SB.bare].  Calls with an argument of an unexpected type show in normal
    mode no line of their own and in expert mode none about the arguments; code
    with such arguments shows nothing in either mode, whatever its length;
    native transfers with other than the expected arguments show a hash of the
    first argument; recognised delegations do not show further arguments. *)
Theorem C77_bare_review :
  forall pf x h p i n r s,
  hash32 (p_hash pf) -> SD.good_header h -> S.len (SD.p_amount p) <= 64 -> SB.fit i ->
  SD.h_bodyhash h = p_hash pf (SD.enc_payment p ++ SD.enc_session i) -> SR.trailing x i n r ->
  let data := SD.enc_header h ++ p_hash pf (SD.enc_header h) ++ SD.enc_payment p ++ SD.enc_session i ++ r in
  bytes data -> zlen data < 65535 -> SB.bare x i s -> expert_ok x (p_time pf) h ->
  reviews pf x (0 :: data) (SB.entitled x (SR.sealed (p_hash pf) h p i) (SB.title i) n s).
Proof. exact bare_review. Qed.
Print Assumptions C77_bare_review.
(** Any code is accepted under the same lines, in both modes; only the
    transaction hash differs. *)
Theorem C77_code_refuted :
  exists pf h p l n r rest, hash32 (p_hash pf) /\
    forall w, bytes w -> zlen w < 60000 -> forall x,
      SR.trailing x (SD.Module w l) n r /\
      reviews pf x (0 :: SB.signed (p_hash pf) h p (SD.Module w l) r)
        (SD.ln "Txn hash" (SD.Hex (SB.signed_hash (p_hash pf) h p (SD.Module w l))) :: rest x).
Proof. exact code_refuted. Qed.
Print Assumptions C77_code_refuted.
(** Any contract is called with any arguments after the first under the same
    lines, one of which says Delegate, in normal mode; in expert mode the lines
    depend on the contract only. *)
Theorem C77_call_refuted :
  exists pf h p n r rest aim a, hash32 (p_hash pf) /\ In (SD.ln "Type" (SD.Words (S.text "Delegate"))) rest /\
    forall t m, let i := SD.Stored t (S.text "delegate") (a :: m) in SB.fit i -> bytes (SD.enc_session i) -> zlen (SD.enc_session i) < 60000 ->
      reviews pf false (0 :: SB.signed (p_hash pf) h p i r) (SD.ln "Txn hash" (SD.Hex (SB.signed_hash (p_hash pf) h p i)) :: rest) /\
      reviews pf true (0 :: SB.signed (p_hash pf) h p i r) (SD.ln "Txn hash" (SD.Hex (SB.signed_hash (p_hash pf) h p i)) :: aim t) /\
      SR.trailing true i n r.
Proof. exact call_refuted. Qed.
Print Assumptions C77_call_refuted.
(** Sessions of all four kinds, and all premises for two of them: a withdrawal
    from a vault, and 5000 bytes of code. *)
Example C77_kinds : forall x,
  (exists s, SB.bare x (SD.Stored (SD.ByName (S.text "vault")) (S.text "withdraw_all") [odd_amount; arg_target]) s) /\
  (exists s, SB.bare x (SD.Module (repeat 7 5000) [odd_amount]) s) /\
  (exists s, SB.bare x (SD.Transfer [arg_amount; arg_note 65; arg_target]) s) /\
  (exists s, SB.bare x (SD.Stored (SD.ByHash (repeat 8 32)) (S.text "delegate") ([arg_amount; arg_validator; arg_delegator] ++ [arg_note 65; arg_target])) s).
Proof. exact bare_case. Qed.
Example C77_case : forall x, Forall (fun i =>
  SB.fit i /\ SR.trailing x i 1 demo_tail /\ bytes (SD.enc_session i) /\ exists s, SB.bare x i s /\
  let h := SB.over demo_head (demo_hash (SD.enc_payment demo_pay ++ SD.enc_session i)) in
  SD.good_header h /\ SD.h_bodyhash h = demo_hash (SD.enc_payment demo_pay ++ SD.enc_session i) /\ expert_ok x (p_time demo) h /\
  bytes (SD.enc_header h ++ demo_hash (SD.enc_header h) ++ SD.enc_payment demo_pay ++ SD.enc_session i ++ demo_tail) /\
  zlen (SD.enc_header h ++ demo_hash (SD.enc_header h) ++ SD.enc_payment demo_pay ++ SD.enc_session i ++ demo_tail) < 65535)
  [SD.Stored (SD.ByName (S.text "vault")) (S.text "withdraw_all") [odd_amount; arg_target]; SD.Module (repeat 7 5000) [odd_amount]].
Proof. exact blank_case. Qed.
