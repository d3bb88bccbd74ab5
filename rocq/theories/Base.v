(** Base layer of the model: machine integers, bounds-checked memory, the
    parser monad and loops.

    Everything in this file is the vocabulary in which the C functions of
    /repo/app/src are transcribed; it models the C language itself (integer
    conversions, array accesses, early return) and not one particular file. *)
From Coq Require Export ZArith List Bool String Ascii.
From Coq Require Import Lia.
Export ListNotations.
Open Scope Z_scope.

(** * Machine integers: values are [Z], wrap-around is explicit. *)
Definition u8  (x : Z) : Z := x mod 256.
Definition u16 (x : Z) : Z := x mod 65536.
Definition u32 (x : Z) : Z := x mod 4294967296.
Definition u64 (x : Z) : Z := x mod 18446744073709551616.

(** Conversion of an unsigned 32-bit value to C [int] (two's complement). *)
Definition int_of_u32 (x : Z) : Z := if x <? 2147483648 then x else x - 4294967296.

(** * Characters and strings are lists of byte values. *)
Definition str (s : string) : list Z :=
  List.map (fun c => Z.of_N (N_of_ascii c)) (list_ascii_of_string s).

Definition zlen {A} (l : list A) : Z := Z.of_nat (List.length l).

Fixpoint list_eqb (a b : list Z) : bool :=
  match a, b with
  | [], [] => true
  | x :: a', y :: b' => (x =? y) && list_eqb a' b'
  | _, _ => false
  end.

(** The C string stored in a zero-filled array: the characters before the
    first NUL. *)
Fixpoint cstr (s : list Z) : list Z :=
  match s with
  | [] => []
  | c :: r => if c =? 0 then [] else c :: cstr r
  end.

(** * Memory *)
(** Byte [i] of [m]; [None] when [i] is outside. *)
Definition rd (m : list Z) (i : Z) : option Z :=
  if (0 <=? i) && (i <? zlen m) then nth_error m (Z.to_nat i) else None.

(** Bytes [o .. o+n) of [m]; [None] when the range is not inside. *)
Definition slice (m : list Z) (o n : Z) : option (list Z) :=
  if (0 <=? o) && (0 <=? n) && (o + n <=? zlen m)
  then Some (firstn (Z.to_nat n) (skipn (Z.to_nat o) m))
  else None.

(** * Outcomes.  [Undef] is C undefined behaviour, kept apart from errors. *)
Inductive ub :=
| OobRead        (* read outside the supplied bytes *)
| OobWrite       (* write past the end of a local array *)
| Unterminated   (* strlen / %s on an array without a NUL *)
| Unspecified    (* a library function called outside its contract *)
| FuelOut.       (* model artefact: recursion depth exhausted; proved unreachable *)

Inductive outcome (A : Type) :=
| Ret (a : A)
| Fail (e : Z)        (* parser_error_t value, never parser_ok *)
| Undef (u : ub).
Arguments Ret {A} _. Arguments Fail {A} _. Arguments Undef {A} _.

(** parser_error_t: common/parser_common.h 34-70 *)
Definition parser_ok := 0.
Definition parser_no_data := 1.
Definition parser_init_context_empty := 2.
Definition parser_display_idx_out_of_range := 3.
Definition parser_display_page_out_of_range := 4.
Definition parser_unexpected_error := 5.
Definition parser_unexpected_type := 10.
Definition parser_unexpected_method := 11.
Definition parser_unexpected_buffer_end := 12.
Definition parser_unexpected_value := 13.
Definition parser_unexpected_number_items := 14.
Definition parser_unexpected_number_fields := 15.
Definition parser_unexpected_characters := 16.
Definition parser_unexpected_field := 17.
Definition parser_unexpected_field_offset := 18.
Definition parser_value_out_of_range := 19.
Definition parser_invalid_address := 20.
Definition parser_context_mismatch := 21.
Definition parser_context_unknown_prefix := 24.
Definition parser_runtimearg_notfound := 27.
Definition parser_invalid_stored_contract := 28.

(** * Parser context.
    [mem]   bytes reachable from ctx->buffer (exactly the supplied data),
    [blen]  ctx->bufferLen (16 bits),
    [hi16]  the 16 bits stored after ctx->offset in the struct, read by the
            C code through a 32-bit pointer (parser_utils.c 82-86),
    [expert] app_mode_expert(),
    [wasm]  ctx->tx_content == Deploy && parser_tx_obj_deploy.type == WasmDeploy,
    [okl]   outKeyLen of the current display call,
    [hash]  blake2b_hash with 32-byte output (external, crypto.c 41-49),
    [timefmt] printTimeSpecialFormat of zxlib (external): seconds to text. *)
Record env := mkEnv {
  mem : list Z; blen : Z; hi16 : Z; expert : bool; wasm : bool; okl : Z;
  hash : list Z -> list Z; timefmt : Z -> option (list Z) }.

(** A parser step: environment and ctx->offset to outcome and new ctx->offset.
    The offset is kept on failure because some callers continue after errors. *)
Definition P (A : Type) := env -> Z -> outcome A * Z.

Definition ret {A} (a : A) : P A := fun _ o => (Ret a, o).
Definition fail {A} (e : Z) : P A := fun _ o => (Fail e, o).
Definition undef {A} (u : ub) : P A := fun _ o => (Undef u, o).
Definition bind {A B} (p : P A) (f : A -> P B) : P B := fun e o =>
  match p e o with
  | (Ret a, o') => f a e o'
  | (Fail x, o') => (Fail x, o')
  | (Undef u, o') => (Undef u, o')
  end.
(** [err = f(); ...]: the caller inspects the error code. *)
Definition try {A} (p : P A) : P (A + Z) := fun e o =>
  match p e o with
  | (Ret a, o') => (Ret (inl a), o')
  | (Fail x, o') => (Ret (inr x), o')
  | (Undef u, o') => (Undef u, o')
  end.
Definition ask {A} (f : env -> A) : P A := fun e o => (Ret (f e), o).
Definition get_off : P Z := fun _ o => (Ret o, o).
(** ctx->offset = x, stored in 16 bits *)
Definition set_off (x : Z) : P unit := fun _ _ => (Ret tt, u16 x).
(** PARSER_ASSERT_OR_ERROR *)
Definition check (b : bool) (e : Z) : P unit := if b then ret tt else fail e.
(** the C code relies on [b]; otherwise its behaviour is undefined *)
Definition require (b : bool) (u : ub) : P unit := if b then ret tt else undef u.

Declare Scope parser_scope.
Notation "x <- p ;; q" := (bind p (fun x => q))
  (at level 61, p at next level, right associativity) : parser_scope.
Notation "' x <- p ;; q" := (bind p (fun x => q))
  (at level 61, x pattern, p at next level, right associativity) : parser_scope.
Notation "p ;; q" := (bind p (fun _ => q))
  (at level 61, right associativity) : parser_scope.
Open Scope parser_scope.

(** ctx->offset += n *)
Definition advance (n : Z) : P unit := o <- get_off ;; set_off (o + n).

(** *(ctx->buffer + i) *)
Definition mem_at (i : Z) : P Z := fun e o =>
  match rd (mem e) i with Some b => (Ret b, o) | None => (Undef OobRead, o) end.
(** the n bytes at ctx->buffer + i, as read by MEMCPY/MEMCMP/a hash *)
Definition mem_slice (i n : Z) : P (list Z) := fun e o =>
  match slice (mem e) i n with Some b => (Ret b, o) | None => (Undef OobRead, o) end.

Definition lift {A} (r : outcome A) : P A := fun _ o => (r, o).

(** * Loops [for (i = 0; i < n; i++) body], n an arbitrary C unsigned value.
    The body either continues with a new state or returns from the function.
    Recursion on the binary count: early exit makes it cheap to run. *)
Inductive flow (S R : Type) := Next (s : S) | Done (r : R).
Arguments Next {S R} _. Arguments Done {S R} _.

Fixpoint loop_pos {S R} (n : positive) (body : S -> P (flow S R)) (s : S) : P (flow S R) :=
  let again p k := bind p (fun f => match f with Next s' => k s' | Done r => ret (Done r) end) in
  match n with
  | xH => body s
  | xO m => again (loop_pos m body s) (loop_pos m body)
  | xI m => again (body s) (fun s1 => again (loop_pos m body s1) (loop_pos m body))
  end.

Definition loop {S R} (n : Z) (body : S -> P (flow S R)) (s : S) : P (flow S R) :=
  match n with Zpos p => loop_pos p body s | _ => ret (Next s) end.

(** * Display items: what a display function leaves in outKey / outVal.
    [VPaged s]: pageString of [s]; [VDirect s]: snprintf of [s], one page. *)
Inductive dval := VPaged (s : list Z) | VDirect (s : list Z).
Record item := mkItem { ikey : list Z; ival : dval }.
