(** Property C78: which deploys are refused, and why. *)
From Verif Require Import Base Zxlib Deploy Parser BaseFacts Spec SpecText SpecDeploy SpecRaw SpecBlind SpecVerdict Shows ReviewFacts Demo WitDeploy WitBlind VerdictFacts VerdictLost VerdictCode VerdictAuction WitVerdict.

(** ** C78  Deploys are refused for stated reasons only *)
(** In each theorem [hh] stands where the hash of the header does, and [r] for
    whatever follows.  Payments that are not code, and sessions of no known kind,
    are refused for their type, whatever follows. *)
Theorem C78_payment_kind :
  forall pf x h hh t r,
  hash32 (p_hash pf) -> SD.good_header h -> S.len hh = 32 ->
  let data := SD.enc_header h ++ hh ++ t :: r in
  0 < t < 256 -> bytes data -> S.len data < 65535 ->
  tx_parse pf x (0 :: data) = Fail (if t <=? 6 then parser_unexpected_type else parser_value_out_of_range).
Proof. intros pf x h hh t r Hh G H32. exact (payment_type_verdict pf x h hh Hh G H32 t r). Qed.
Print Assumptions C78_payment_kind.
Theorem C78_session_kind :
  forall pf x h hh p t r,
  hash32 (p_hash pf) -> SD.good_header h -> S.len hh = 32 ->
  let data := SD.enc_header h ++ hh ++ SD.enc_payment p ++ t :: r in
  5 < t < 256 -> bytes data -> S.len data < 65535 ->
  tx_parse pf x (0 :: data) = Fail (if t <=? 6 then parser_context_mismatch else parser_value_out_of_range).
Proof. intros pf x h hh p t r Hh G H32. exact (session_type_verdict pf x h hh Hh G H32 p t r). Qed.
Print Assumptions C78_session_kind.
(** Payments other than one amount of type U512 are refused, whatever the code
    and whatever follows. *)
Theorem C78_payment :
  forall pf x h hh w l c r,
  hash32 (p_hash pf) -> SD.good_header h -> S.len hh = 32 ->
  let data := SD.enc_header h ++ hh ++ (0 :: S.lv w ++ S.enc_args l) ++ r in
  Forall SD.good_arg l -> bytes data -> S.len data < 65535 -> SY.payment_refusal l = Some c ->
  tx_parse pf x (0 :: data) = Fail (code c).
Proof. intros pf x h hh w l c r Hh G H32. exact (payment_verdict pf x h hh Hh G H32 w l c r). Qed.
Print Assumptions C78_payment.
(** Sessions are refused for the reasons of [SY.session_refusal], whatever the
    hashes. *)
Theorem C78_session :
  forall pf x h hh p i n r c,
  hash32 (p_hash pf) -> SD.good_header h -> S.len hh = 32 -> SB.fit i -> SY.plain_code i -> SR.trailing false i n r ->
  let data := SD.enc_header h ++ hh ++ SD.enc_payment p ++ SD.enc_session i ++ r in
  bytes data -> S.len data < 65535 -> SY.session_refusal i = Some c ->
  tx_parse pf x (0 :: data) = Fail (code c).
Proof. intros pf x h hh p i n r c Hh G H32 F P T. exact (fun B L => session_refused_verdict pf x h hh Hh G H32 p i n r F P T B L c). Qed.
Print Assumptions C78_session.
(** All others are refused if a hash is wrong. *)
Theorem C78_hash :
  forall pf x h hh p i n r,
  hash32 (p_hash pf) -> SD.good_header h -> S.len hh = 32 -> SB.fit i -> SY.plain_code i -> SR.trailing false i n r ->
  let data := SD.enc_header h ++ hh ++ SD.enc_payment p ++ SD.enc_session i ++ r in
  bytes data -> S.len data < 65535 -> SY.session_refusal i = None ->
  hh <> p_hash pf (SD.enc_header h) \/ SD.h_bodyhash h <> p_hash pf (SD.enc_payment p ++ SD.enc_session i) ->
  tx_parse pf x (0 :: data) = Fail parser_context_mismatch.
Proof. intros pf x h hh p i n r Hh G H32 F P T. exact (hash_verdict pf x h hh Hh G H32 p i n r F P T). Qed.
Print Assumptions C78_hash.
(** And the rest is accepted, with a review.  Missing for the full claim: values
    that are not of their type; and, as shown below, delegations with an argument
    out of reach and code above 32 bytes whose hash is shown. *)
Theorem C78_accepted_partial :
  forall pf x h p i n r,
  hash32 (p_hash pf) -> SD.good_header h -> S.len (SD.p_amount p) <= 64 -> SB.fit i -> SY.plain_code i -> SR.trailing x i n r ->
  SD.h_bodyhash h = p_hash pf (SD.enc_payment p ++ SD.enc_session i) -> expert_ok x (p_time pf) h ->
  let data := SD.enc_header h ++ p_hash pf (SD.enc_header h) ++ SD.enc_payment p ++ SD.enc_session i ++ r in
  bytes data -> S.len data < 65535 ->
  SY.session_refusal i = None -> SY.sound (SD.args_of i) -> SY.gathered i -> SY.short_code x i ->
  exists lines, reviews pf x (0 :: data) lines.
Proof. exact accepted_verdict. Qed.
Print Assumptions C78_accepted_partial.
(** Except delegations with an argument behind the first three, or four: the
    device looks no further, so they are refused for an argument they have.  And
    code with an argument auction that names no operation, or one without its
    arguments: the device looks for these among the bytes of the code. *)
Theorem C78_scattered :
  forall pf x h p i n r,
  hash32 (p_hash pf) -> SD.good_header h -> S.len (SD.p_amount p) <= 64 -> SB.fit i -> SY.plain_code i -> SR.trailing x i n r ->
  SD.h_bodyhash h = p_hash pf (SD.enc_payment p ++ SD.enc_session i) -> expert_ok x (p_time pf) h ->
  let data := SD.enc_header h ++ p_hash pf (SD.enc_header h) ++ SD.enc_payment p ++ SD.enc_session i ++ r in
  bytes data -> S.len data < 65535 ->
  SY.session_refusal i = None -> SY.sound (SD.args_of i) ->
  (SY.misread i = true -> SY.legible (SD.args_of i)) -> SY.short_code x i -> ~ SY.gathered i ->
  tx_parse pf x (0 :: data) = Fail (if SY.misread i then parser_unexpected_buffer_end else parser_no_data).
Proof. exact lost_verdict. Qed.
Print Assumptions C78_scattered.
(** Except code of more than 32 bytes whose hash is shown: it is copied into an
    array of 32 bytes. *)
Theorem C78_overflow :
  forall pf x h p i n r,
  hash32 (p_hash pf) -> SD.good_header h -> S.len (SD.p_amount p) <= 64 -> SB.fit i -> SY.plain_code i -> SR.trailing x i n r ->
  SD.h_bodyhash h = p_hash pf (SD.enc_payment p ++ SD.enc_session i) -> expert_ok x (p_time pf) h ->
  let data := SD.enc_header h ++ p_hash pf (SD.enc_header h) ++ SD.enc_payment p ++ SD.enc_session i ++ r in
  bytes data -> S.len data < 65535 ->
  SY.session_refusal i = None -> SY.sound (SD.args_of i) -> ~ SY.short_code x i ->
  tx_parse pf x (0 :: data) = Undef OobWrite.
Proof. exact long_verdict. Qed.
Print Assumptions C78_overflow.
(** All together. *)
Theorem C78_exact_partial :
  forall pf x h p i n r,
  hash32 (p_hash pf) -> SD.good_header h -> S.len (SD.p_amount p) <= 64 -> SB.fit i -> SY.plain_code i -> SR.trailing x i n r ->
  SD.h_bodyhash h = p_hash pf (SD.enc_payment p ++ SD.enc_session i) -> expert_ok x (p_time pf) h ->
  let data := SD.enc_header h ++ p_hash pf (SD.enc_header h) ++ SD.enc_payment p ++ SD.enc_session i ++ r in
  bytes data -> S.len data < 65535 -> SY.session_refusal i = None -> SY.sound (SD.args_of i) ->
  (SY.misread i = true -> SY.legible (SD.args_of i)) ->
  (SY.short_code x i /\ SY.gathered i /\ exists lines, reviews pf x (0 :: data) lines) \/
  (SY.short_code x i /\ ~ SY.gathered i /\
     tx_parse pf x (0 :: data) = Fail (if SY.misread i then parser_unexpected_buffer_end else parser_no_data)) \/
  (~ SY.short_code x i /\ tx_parse pf x (0 :: data) = Undef OobWrite).
Proof. exact verdict_exact. Qed.
Print Assumptions C78_exact_partial.
(** Code with an argument auction and an argument of an unexpected type, exactly
    (see C77): under the type Delegate, if auction says so, and in normal mode
    without a line of its own. *)
Theorem C77_deed_review :
  forall pf x h p w l n r,
  hash32 (p_hash pf) -> SD.good_header h -> S.len (SD.p_amount p) <= 64 -> SB.fit (SD.Module w l) -> SY.plain_code (SD.Module w l) ->
  SD.h_bodyhash h = p_hash pf (SD.enc_payment p ++ SD.enc_session (SD.Module w l)) -> SR.trailing x (SD.Module w l) n r ->
  let data := SD.enc_header h ++ p_hash pf (SD.enc_header h) ++ SD.enc_payment p ++ SD.enc_session (SD.Module w l) ++ r in
  bytes data -> zlen data < 65535 -> SD.has "auction" l = true -> SB.ill_typed l -> SY.session_refusal (SD.Module w l) = None ->
  (x = true -> zlen w <= 32) -> expert_ok x (p_time pf) h ->
  reviews pf x (0 :: data) (SB.entitled x (SR.sealed (p_hash pf) h p (SD.Module w l)) (SY.deed_title l) n (SY.deed_lines (p_hash pf) x w l)).
Proof. exact deed_review. Qed.
Print Assumptions C77_deed_review.
(** Any code is accepted under the same lines, one of which says Delegate, in
    normal mode. *)
Theorem C77_deed_refuted :
  exists pf h p l n r rest, hash32 (p_hash pf) /\ In (SD.ln "Type" (SD.Words (S.text "Delegate"))) rest /\
    forall w, bytes w -> zlen w < 60000 -> SR.trailing false (SD.Module w l) n r /\
      reviews pf false (0 :: SB.signed (p_hash pf) h p (SD.Module w l) r)
        (SD.ln "Txn hash" (SD.Hex (SB.signed_hash (p_hash pf) h p (SD.Module w l))) :: rest).
Proof. exact deed_refuted. Qed.
Print Assumptions C77_deed_refuted.
Example C77_deed_case : forall x, sized x (SD.Module (repeat 7 20) deed_args) /\ SD.has "auction" deed_args = true /\ SB.ill_typed deed_args /\
  zlen (repeat 7 20) <= 32.
Proof. exact deed_case. Qed.
Example C78_payments : SD.good_header demo_head /\ S.len wrong_hash = 32 /\ hash32 (p_hash demo) /\
  Forall (fun lc => let data := SD.enc_header demo_head ++ wrong_hash ++ (0 :: S.lv [1; 2; 3] ++ S.enc_args (fst lc)) ++ [7; 7] in
    Forall SD.good_arg (fst lc) /\ bytes data /\ S.len data < 65535 /\ SY.payment_refusal (fst lc) = Some (snd lc))
  [([], SY.Number_of); ([arg_amount; arg_target], SY.No_amount); ([odd_amount], SY.No_amount); ([arg_target], SY.No_amount)].
Proof. exact payment_case. Qed.
Example C78_kinds : Forall (fun t => let data := SD.enc_header demo_head ++ wrong_hash ++ t :: [7; 7] in
    0 < t < 256 /\ bytes data /\ S.len data < 65535) [1; 5; 6; 255] /\
  Forall (fun t => let data := SD.enc_header demo_head ++ wrong_hash ++ SD.enc_payment demo_pay ++ t :: [7; 7] in
    5 < t < 256 /\ bytes data /\ S.len data < 65535) [6; 7; 255].
Proof. exact type_case. Qed.
Example C78_refused : Forall (fun ic => let i := fst ic in
    let data := SD.enc_header demo_head ++ wrong_hash ++ SD.enc_payment demo_pay ++ SD.enc_session i ++ demo_tail in
    SB.fit i /\ SY.plain_code i /\ SR.trailing false i 1 demo_tail /\ bytes data /\ S.len data < 65535 /\ SY.session_refusal i = Some (snd ic)) refused_sessions.
Proof. exact session_case. Qed.
Example C78_mismatch : Forall (fun i =>
  let data := SD.enc_header demo_head ++ wrong_hash ++ SD.enc_payment demo_pay ++ SD.enc_session i ++ demo_tail in
    SB.fit i /\ SY.plain_code i /\ SR.trailing false i 1 demo_tail /\ bytes data /\ S.len data < 65535 /\ SY.session_refusal i = None /\
    wrong_hash <> demo_hash (SD.enc_header demo_head)) accepted_sessions.
Proof. exact hash_case. Qed.
Example C78_case : forall x, Forall (fun i => sized x i /\ SY.gathered i /\ SY.short_code x i) accepted_sessions.
Proof. exact accepted_case. Qed.
Example C78_scattered_case : forall x, Forall (fun i =>
  sized x i /\ SY.short_code x i /\ (SY.misread i = true -> SY.legible (SD.args_of i)) /\ ~ SY.gathered i) scattered.
Proof. exact scattered_case. Qed.
Example C78_overflow_case : Forall (fun xi => sized (fst xi) (snd xi) /\ ~ SY.short_code (fst xi) (snd xi)) long_codes.
Proof. exact long_case. Qed.
Example C78_quiet_case : sized false long_named /\ SY.gathered long_named /\ SY.short_code false long_named /\ ~ SY.short_code true long_named.
Proof. exact quiet_case. Qed.
