(** Specification side, written from the Casper binary format and not from the
    C code: integers, CLType descriptors, named arguments.  Nothing in this
    file refers to the model. *)
From Coq Require Export ZArith List Bool String Ascii.
Export ListNotations.
Open Scope Z_scope.

Module S.

Definition len {A} (l : list A) : Z := Z.of_nat (List.length l).

(** Byte values of an ASCII literal. *)
Definition text (s : string) : list Z :=
  List.map (fun c => Z.of_N (N_of_ascii c)) (list_ascii_of_string s).

(** * Little-endian integers *)
(** the [n]-byte encoding of [v] *)
Fixpoint le (n : nat) (v : Z) : list Z :=
  match n with O => [] | S k => v mod 256 :: le k (v / 256) end.

(** the value of a little-endian byte string: sum of byte i times 256^i *)
Fixpoint value_at (i : Z) (bs : list Z) : Z :=
  match bs with [] => 0 | b :: r => b * 256 ^ i + value_at (i + 1) r end.
Definition value (bs : list Z) : Z := value_at 0 bs.

(** 32-bit length prefix *)
Definition lv (bs : list Z) : list Z := le 4 (len bs) ++ bs.

(** * CLType descriptors (casper-types, CLType::append_bytes) *)
Inductive cltype :=
| Prim (tag : Z)                       (* no parameter: Bool .. URef, PublicKey, Any *)
| COption (t : cltype)
| CList (t : cltype)
| CByteArray (n : Z)
| CResult (ok err : cltype)
| CMap (k v : cltype)
| CTuple1 (a : cltype)
| CTuple2 (a b : cltype)
| CTuple3 (a b c : cltype).

Definition tag (t : cltype) : Z :=
  match t with
  | Prim g => g | COption _ => 13 | CList _ => 14 | CByteArray _ => 15
  | CResult _ _ => 16 | CMap _ _ => 17 | CTuple1 _ => 18 | CTuple2 _ _ => 19
  | CTuple3 _ _ _ => 20
  end.

Fixpoint enc_type (t : cltype) : list Z :=
  match t with
  | Prim g => [g]
  | COption a => 13 :: enc_type a
  | CList a => 14 :: enc_type a
  | CByteArray n => 15 :: le 4 n
  | CResult a b => 16 :: enc_type a ++ enc_type b
  | CMap a b => 17 :: enc_type a ++ enc_type b
  | CTuple1 a => 18 :: enc_type a
  | CTuple2 a b => 19 :: enc_type a ++ enc_type b
  | CTuple3 a b c => 20 :: enc_type a ++ enc_type b ++ enc_type c
  end.

(** The tags that exist without parameters: 0..12, PublicKey (22), Any (21). *)
Definition prim_tag (g : Z) : bool := ((0 <=? g) && (g <=? 12)) || (g =? 22).
(** A type that is not a container (the C code counts Any as one). *)
Definition leaf (t : cltype) : bool :=
  match t with
  | Prim g => prim_tag g
  | CByteArray n => (0 <=? n) && (n <? 4294967296)
  | _ => false
  end.
Definition plain (t : cltype) : bool := match t with Prim g => prim_tag g | _ => false end.

(** Descriptors with at most one container level (two below a map), every
    component but the last being parameterless. *)
Definition supported1 (t : cltype) : bool :=
  match t with
  | Prim g => prim_tag g || (g =? 21)
  | CByteArray n => (0 <=? n) && (n <? 4294967296)
  | COption a => leaf a
  | CList a => leaf a || match a with Prim g => g =? 21 | _ => false end
  | CResult a b => plain a && leaf b
  | CTuple1 a => leaf a
  | CTuple2 a b => plain a && leaf b
  | CTuple3 a b c => plain a && plain b && leaf c
  | CMap _ _ => false
  end.
Definition supported (t : cltype) : bool :=
  match t with
  | CMap a b => match a with Prim g => prim_tag g || (g =? 21) | _ => false end && supported1 b
  | _ => supported1 t
  end.

(** One level of nesting with any components. *)
Definition one_level (t : cltype) : bool :=
  match t with
  | Prim g => prim_tag g
  | CByteArray n => (0 <=? n) && (n <? 4294967296)
  | COption a | CList a | CTuple1 a => leaf a
  | CResult a b | CTuple2 a b | CMap a b => leaf a && leaf b
  | CTuple3 a b c => leaf a && leaf b && leaf c
  end.

(** Containers (Any counts as one). *)
Definition container (t : cltype) : bool :=
  match t with Prim g => g =? 21 | CByteArray _ => false | _ => true end.
Definition is_any (t : cltype) : bool := match t with Prim g => g =? 21 | _ => false end.
(** A container directly inside option, list, result or tuple, with
    parameterless components before it. *)
Definition nested (t : cltype) : bool :=
  match t with
  | COption a => container a
  | CList a => container a && negb (is_any a)
  | CTuple1 a => container a
  | CResult a b | CTuple2 a b => container a || (plain a && container b)
  | CTuple3 a b c => container a || (plain a && container b) || (plain a && plain b && container c)
  | _ => false
  end.

(** Inner type of an option: the tag the transfer rules look at. *)
Definition option_inner (t : cltype) : option Z :=
  match t with COption a => Some (tag a) | _ => None end.

(** * Named arguments *)
Record arg := Arg { a_name : list Z; a_val : list Z; a_ty : cltype }.
Definition enc_arg (a : arg) : list Z := lv (a_name a) ++ lv (a_val a) ++ enc_type (a_ty a).
(** without / with the 32-bit count in front *)
Definition enc_arg_list (l : list arg) : list Z := List.concat (List.map enc_arg l).
Definition enc_args (l : list arg) : list Z := le 4 (len l) ++ enc_arg_list l.

(** first argument named [n], with the number of bytes before it *)
Fixpoint lookup (n : list Z) (l : list arg) : option (Z * arg) :=
  match l with
  | [] => None
  | a :: r => if list_eq_dec Z.eq_dec (a_name a) n then Some (0, a)
              else match lookup n r with
                   | Some (p, b) => Some (len (enc_arg a) + p, b)
                   | None => None
                   end
  end.
Definition find_arg (n : list Z) (l : list arg) : option arg :=
  match lookup n l with Some (_, a) => Some a | None => None end.

End S.
