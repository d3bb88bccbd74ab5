(** The functions the review screens call for a transaction. *)
From Verif Require Import Base Zxlib Crypto Utils RuntimeArg Deploy DeployUI TxV1 TxV1UI Parser.

(** conversion to int8_t *)
Definition i8 (x : Z) : Z := let y := u8 x in if y <? 128 then y else y - 256.

(** What tx_getItem delivers: an item, zxerr_no_data, zxerr_unknown; or it
    leaves the C semantics. *)
Inductive zx := ZItem (it : item) | ZNoData | ZUnknown | ZUndef (u : ub).

(** common/tx.c 101-120.  The caller (zxlib, not in /repo) asks for item
    [idx]; the parameter is an int8_t.  The page is chosen by the caller and
    does not enter here: [tx_getItem] delivers the whole value. *)
Definition screen_item (pf : platform) (x : bool) (kl : Z) (data : list Z) (t : txn) (idx : Z) : zx :=
  let i := i8 idx in
  if (i <? 0) || (getNumItems x t <? i) then ZNoData
  else match tx_getItem pf x kl data t i with
       | Ret it => ZItem it
       | Fail e =>
           if (e =? parser_no_data) || (e =? parser_display_idx_out_of_range) || (e =? parser_display_page_out_of_range)
           then ZNoData else ZUnknown
       | Undef u => ZUndef u
       end.
