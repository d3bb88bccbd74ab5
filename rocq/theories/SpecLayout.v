(** Specification of the layout of a TransactionV1 in arbitrary bytes: where
    its tables and fields are.  Positions are those of the bytes after the
    format byte.  Nothing in this file refers to the model. *)
From Verif Require Export Spec SpecTx.

Module SL.
Import S SX.

(** The bytes [bs] are in [d] at position [p]. *)
Definition here (d : list Z) (p : Z) (bs : list Z) : Prop :=
  exists pre post, d = pre ++ bs ++ post /\ len pre = p.

(** A table of contents: number of fields, their offsets, total size. *)
Record tbl := Tbl { t_n : Z; t_offs : list Z; t_size : Z }.
Definition word (v : Z) : Prop := 0 <= v < 2 ^ 32.
(** The table is at position [p] of [d]; its fields are listed in index order
    ([raw_head]); it has one to ten entries, counted modulo 256. *)
Record tbl_at (d : list Z) (p : Z) (t : tbl) : Prop := {
  tb_here : here d p (raw_head (t_n t) (t_offs t) (t_size t));
  tb_n : word (t_n t); tb_offs : Forall word (t_offs t); tb_size : word (t_size t);
  tb_num : 1 <= t_n t mod 256 <= 10; tb_len : len (t_offs t) = t_n t mod 256 }.
Definition off (t : tbl) (k : nat) : Z := nth k (t_offs t) 0.
(** Position of the first field, of field [k] (a 32-bit sum), and of the end
    of the fields (of the size only 16 bits are kept). *)
Definition first (p : Z) (t : tbl) : Z := p + 8 + 6 * len (t_offs t).
Definition place (p : Z) (t : tbl) (k : nat) : Z := (first p t + off t k) mod 2 ^ 32.
Definition fin (p : Z) (t : tbl) : Z := first p t + t_size t mod 65536.

(** The initiator: a public key of one of three algorithms, or an account hash. *)
Definition initiator_bytes (bs : list Z) : Prop :=
  bs = [0; 0] \/ (exists k, bs = 0 :: 1 :: k /\ len k = 32) \/ (exists k, bs = 0 :: 2 :: k /\ len k = 33)
  \/ (exists h, bs = 1 :: h /\ len h = 32).
(** The pricing mode, and the offsets of its fields after the first two. *)
Definition pricing_bytes (bs : list Z) (t : tbl) : Prop :=
  (exists a g s, bs = 0 :: a ++ [g; s] /\ len a = 8 /\ off t 2 = 9 /\ off t 3 = 10)
  \/ (exists g f, bs = [1; g; f] /\ off t 2 = 2)
  \/ (exists h, bs = 2 :: h /\ len h = 32).

(** The header: the payload's table is at [p], the body at [b]. *)
Definition header_layout (d : list Z) (p : Z) (pay : tbl) (b : Z) : Prop :=
  let i := first p pay in
  off pay 0 = 0 /\
  exists ini who, tbl_at d i ini /\ t_offs ini = [0; 1] /\ here d (first i ini) who /\ initiator_bytes who /\
    fin i ini = first i ini + len who /\ off pay 1 = 20 + len who /\
  off pay 2 = off pay 1 + 8 /\ off pay 3 = off pay 1 + 16 /\
  exists cl, here d (i + off pay 3) (le 4 cl) /\ word cl /\
  let q := place p pay 4 in
  q = (i + off pay 3 + 4 + cl) mod 2 ^ 32 /\ q <= len d /\
  exists pri price, tbl_at d q pri /\ off pri 0 = 0 /\ off pri 1 = 1 /\ here d (first q pri) price /\ pricing_bytes price pri /\
    fin q pri = first q pri + len price /\ place p pay 5 = fin q pri /\ b = fin q pri.

(** The target at [a] (its key), of kind [tt], with the entry point's key at
    [t]; the entry point, of kind [et], with the scheduling's key at [s]. *)
Definition target_layout (d : list Z) (a t tt : Z) : Prop :=
  exists l tab, here d a (le 2 1 ++ le 4 l) /\ tbl_at d (a + 6) tab /\ off tab 0 = 0 /\
    here d (first (a + 6) tab) [tt] /\
    (tt = 0 /\ t = first (a + 6) tab + 1 /\ t = fin (a + 6) tab
     \/ tt = 1 /\ off tab 1 = 1 /\ (exists inner, tbl_at d (first (a + 6) tab + 1) inner)
     \/ tt = 2 /\ off tab 1 = 1).
Definition entry_layout (d : list Z) (t s et : Z) : Prop :=
  exists l tab, here d t (le 2 2 ++ le 4 l) /\ tbl_at d (t + 6) tab /\ off tab 0 = 0 /\
    here d (first (t + 6) tab) [et] /\ 0 <= et <= 12 /\ s = fin (t + 6) tab /\
    (if et =? 1 then off tab 1 = 1 /\ exists nl, word nl /\ here d (first (t + 6) tab + 1) (le 4 nl)
                     /\ s = (first (t + 6) tab + 5 + nl) mod 2 ^ 32
     else s = first (t + 6) tab + 1).
(** Named arguments as they lie: name and value behind 32-bit lengths, then the
    bytes of a type. *)
Record raw_arg := RawArg { r_name : list Z; r_val : list Z; r_ty : list Z }.
Definition raw_bytes (r : raw_arg) : list Z := lv (r_name r) ++ lv (r_val r) ++ r_ty r.
Definition laid (d : list Z) (p : Z) (l : list raw_arg) : Prop :=
  here d p (List.concat (List.map raw_bytes l)) /\ Forall (fun r => 1 <= len (r_ty r)) l.
Definition after (p : Z) (l : list raw_arg) : Z := p + len (List.concat (List.map raw_bytes l)).
(** At [q] there is a length that leads backwards (modulo 2^32): that of a name
    or, after the name, of a value. *)
Definition leap_at (d : list Z) (q : Z) : Prop :=
  exists w, 2 ^ 32 - 65536 <= w < 2 ^ 32 /\ (here d q (le 4 w) \/ exists n, here d q (lv n ++ le 4 w)).
(** [n] arguments one after the other from [p] to [q], or up to such a length. *)
Definition run (d : list Z) (n p q : Z) : Prop :=
  exists l, laid d p l /\ (len l = n /\ q = after p l \/ len l < n /\ leap_at d (after p l)).

(** The body at [b]: arguments up to [a], target up to [t], entry point up to
    [s], scheduling up to [z]. *)
Definition body_layout (d : list Z) (b a t s z tt et : Z) : Prop :=
  exists al sl tab,
    here d b (le 4 4 ++ le 2 0 ++ le 4 al) /\
    ((exists n, here d (b + 10) (0 :: le 4 n) /\ word n /\ run d n (b + 15) a) \/ (exists n, here d (b + 10) (1 :: le 4 n) /\ word n /\ a = (b + 15 + n) mod 2 ^ 32)) /\
    target_layout d a t tt /\ entry_layout d t s et /\
    here d s (le 2 3 ++ le 4 sl) /\ tbl_at d (s + 6) tab /\ off tab 0 = 0 /\ here d (first (s + 6) tab) [0] /\
    fin (s + 6) tab = first (s + 6) tab + 1 /\ z = fin (s + 6) tab.

(** The whole transaction, of a target of kind [tt] and an entry point of kind
    [et]: tables [top] and [pay], body, approvals up to [c]. *)
Definition layout_at (d : list Z) (top pay : tbl) (b a t s tt et c : Z) : Prop :=
  tbl_at d 0 top /\ off top 0 = 0 /\ off top 1 = 32 /\
  let p := first 0 top + 32 in
  tbl_at d p pay /\ header_layout d p pay b /\ body_layout d b a t s (fin p pay) tt et /\
  place 0 top 2 = fin p pay /\
  exists na, here d (fin p pay) (le 4 na) /\ word na /\ c = fin 0 top.
Definition layout (d : list Z) (tt et c : Z) : Prop := exists top pay b a t s, layout_at d top pay b a t s tt et c.

(** Every section lies behind the one before it. *)
Definition forward (top pay : tbl) (b a t s c : Z) : Prop :=
  let p := first 0 top + 32 in 0 < p < first p pay /\ first p pay <= b /\ b < a < t /\ t < s < fin p pay /\ fin p pay < c.
(** No four bytes anywhere are a number that, as a length, leads backwards. *)
Definition no_leap (d : list Z) : Prop := forall p w, here d p (le 4 w) -> word w -> w < 2 ^ 32 - 65536.
End SL.
