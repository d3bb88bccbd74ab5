(** Specification of the lines that depend on the heading of a transaction
    only.  Nothing in this file refers to the model. *)
From Verif Require Export Spec SpecText SpecDeploy SpecTx SpecRaw SpecForm.

Module SH.
Import S SX SF.

Definition price_lines (p : price) : list xline :=
  match p with
  | PClassic a g _ => [(text "Payment", Grouped a); xl "Max gs prce" (SD.Number g)]
  | PFixed g _ => [xl "Payment" (SD.Words (text "Fixed")); xl "Max gs prce" (SD.Number g)]
  | PPrepaid r => [xl "Payment" (SD.Words (text "Prepaid")); xl "Receipt" (SD.Hex r)]
  end.

(** The first lines of the review of a TransactionV1. *)
Definition form_head (expert : bool) (u : form) : list xline :=
  [xl "Txn hash" (SD.Hex (f_hash u)); xl "Type" (SD.Words (text (entry_text (f_entry u))));
   xl "Chain ID" (SD.Text (f_chain u)); xl "Account" (SD.Hex (init_bytes (f_initiator u)))]
  ++ (if expert then [xl "Timestamp" (SD.Time (f_time u / 1000)); xl "Ttl" (SD.Ttl (f_ttl u / 1000))] ++ price_lines (f_price u) else []).

(** The heading can be shown: chain name of at most 99 characters without NUL;
    in expert mode a date, less than 29 days, less than 10^19 motes. *)
Definition form_clear (expert : bool) (date : Z -> option (list Z)) (u : form) : Prop :=
  SD.good_name 99 (f_chain u) /\
  (expert = true -> f_ttl u / 1000 < 29 * 86400 /\ (exists s, date (f_time u / 1000) = Some s) /\
                    match f_price u with PClassic a _ _ => a < 10 ^ 19 | _ => True end).
(** The same but for date and lifetime. *)
Definition form_plain (expert : bool) (u : form) : Prop :=
  SD.good_name 99 (f_chain u) /\ (expert = true -> match f_price u with PClassic a _ _ => a < 10 ^ 19 | _ => True end).
Definition few_args (u : form) : Prop := match f_args u with ANamed l => len l < 240 | ARaw _ => True end.

(** Lines of the review of a deploy, with their numbers: those of the header
    [h], its hash and the fee. *)
Definition deploy_head (expert : bool) (h : SD.header) (hash : list Z) (fee : SD.line) : list (Z * SD.line) :=
  [(0, SD.ln "Txn hash" (SD.Hex hash)); (2, SD.ln "Chain ID" (SD.Text (SD.h_chain h)));
   (3, SD.ln "Account" (SD.KeyText (SD.h_alg h) (SD.h_key h)))]
  ++ (if expert then [(4, SD.ln "Timestamp" (SD.Time (SD.h_time h / 1000))); (5, SD.ln "Ttl" (SD.Ttl (SD.h_ttl h / 1000)));
                      (6, SD.ln "Gas price" (SD.Number (SD.h_gas h))); (7, SD.ln "Deps #" (SD.Number (len (SD.h_deps h))));
                      (8, fee)]
      else [(4, fee)]).
(** Payment with code [w] and an amount of the value [v], and what is shown of
    it: the number in all bytes but the first, but for the digits above 256. *)
Definition enc_fee (w v : list Z) : list Z := 0 :: lv w ++ enc_args [Arg (text "amount") v (Prim 8)].
Definition fee_line (v : list Z) : SD.line := SD.ln "Fee" (SD.Motes (value (tl v) mod 10 ^ 256)).
End SH.
