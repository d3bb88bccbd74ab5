(** Contracts of the ledger-zxlib / C library functions the app calls.
    None of these is in /repo (deps/ledger-zxlib is a submodule that is not
    checked out); the definitions below state the behaviour assumed, and are
    part of the trusted base (DESIGN.md section 4). *)
From Verif Require Import Base.

(** Decimal digits of a non-negative integer, most significant first, "0" for
    zero.  Used for "%d" / "%u", uint64_to_str and fpuint64_to_str(.., 0). *)
Fixpoint dec_fuel (fuel : nat) (n : Z) (acc : list Z) : list Z :=
  match fuel with
  | O => acc
  | S f => let acc' := (48 + n mod 10) :: acc in
           if n / 10 =? 0 then acc' else dec_fuel f (n / 10) acc'
  end.
Definition dec (n : Z) : list Z := dec_fuel (S (Z.to_nat (Z.log2 n))) n [].

(** Little-endian value of a byte string. *)
Fixpoint le_val (bs : list Z) : Z :=
  match bs with [] => 0 | b :: r => b + 256 * le_val r end.

(** bignumLittleEndian_to_bcd into [n] BCD bytes, then
    bignumLittleEndian_bcdprint: the decimal text of the value modulo
    10^(2n). Called with n = 128 (parser.c 166-175). *)
Definition bignum_text (n : Z) (bs : list Z) : list Z := dec (le_val bs mod 10 ^ (2 * n)).

(** uint64_to_str(data, dataLen, number): decimal text; the buffer must hold
    the digits and the terminator, otherwise its content is unspecified. *)
Definition uint64_to_str (cap n : Z) : outcome (list Z) :=
  if zlen (dec n) <? cap then Ret (dec n) else Undef Unspecified.

(** snprintf(out, len, "%s", s): at most len-1 characters. *)
Definition snprintf (len : Z) (s : list Z) : list Z := firstn (Z.to_nat (len - 1)) s.

(** pageString / pageStringExt(outVal, outValLen, s, pageIdx, &pageCount):
    (text of the page, page count). *)
Definition page (outlen : Z) (s : list Z) (idx : Z) : list Z * Z :=
  let w := outlen - 1 in
  if (0 <? w) && (0 <? zlen s) then
    let cnt := u8 (u8 (zlen s / w) + (if 0 <? zlen s mod w then 1 else 0)) in
    if idx <? cnt then (firstn (Z.to_nat w) (skipn (Z.to_nat (idx * w)) s), cnt)
    else ([], cnt)
  else ([], 0).

(** to_uppercase / to_lowercase of zxmacros on an ASCII letter *)
Definition to_uppercase (c : Z) : Z := if (97 <=? c) && (c <=? 122) then c - 32 else c.
Definition to_lowercase (c : Z) : Z := if (65 <=? c) && (c <=? 90) then c + 32 else c.

(** What the caller of a display function finds in outKey, outVal, pageCount
    for buffers of [klen], [vlen] bytes and page [idx]. *)
Record shown := mkShown { skey : list Z; sval : list Z; spages : Z }.
Definition render (klen vlen idx : Z) (it : item) : shown :=
  match ival it with
  | VPaged s => let '(t, c) := page vlen s idx in mkShown (snprintf klen (ikey it)) t c
  | VDirect s => mkShown (snprintf klen (ikey it)) (snprintf vlen s) 1
  end.
