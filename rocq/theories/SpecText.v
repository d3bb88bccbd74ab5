(** Specification of the texts on screen, independent of the model: decimal
    numerals, digit grouping, time-to-live, CEP-57 checksummed hexadecimal. *)
From Verif Require Export Spec.

Module ST.
Import S.

(** * Decimal numerals *)
Definition digit (c : Z) : Prop := 48 <= c <= 57.
(** value of a numeral, most significant digit first *)
Definition num (s : list Z) : Z := fold_left (fun a c => 10 * a + (c - 48)) s 0.
(** [s] is the numeral of [n], without leading zeros *)
Definition decimal (n : Z) (s : list Z) : Prop :=
  s <> [] /\ Forall digit s /\ num s = n /\ (hd 0 s = 48 -> s = [48]).

(** Groups of three digits separated by a space, counted from the right. *)
Fixpoint group_rev (r : list Z) : list Z :=
  match r with
  | a :: b :: c :: ((_ :: _) as t) => a :: b :: c :: 32 :: group_rev t
  | _ => r
  end.
Definition group (s : list Z) : list Z := rev (group_rev (rev s)).

(** [s] shows the amount [n] in motes *)
Definition motes_text (n : Z) (s : list Z) : Prop :=
  exists ds, decimal n ds /\ s = group ds ++ text " motes".

(** * Time to live *)
Fixpoint join (l : list (list Z)) : list Z :=
  match l with
  | [] => []
  | [x] => x
  | x :: r => x ++ [32] ++ join r
  end.
(** the parts that are not zero, as numeral and unit *)
Definition part (n : Z) (numeral unit : list Z) : list (list Z) :=
  if n =? 0 then [] else [numeral ++ unit].
Definition ttl_text (sec : Z) (s : list Z) : Prop :=
  exists d h m x nd nh nm nx,
    sec = 86400 * d + 3600 * h + 60 * m + x /\
    0 <= d /\ 0 <= h < 24 /\ 0 <= m < 60 /\ 0 <= x < 60 /\
    decimal d nd /\ decimal h nh /\ decimal m nm /\ decimal x nx /\
    s = join (part d nd (text (if d =? 1 then "day" else "days")) ++
              part h nh (text "h") ++ part m nm (text "m") ++ part x nx (text "s")).

(** * Hexadecimal *)
Definition nibbles (bs : list Z) : list Z := flat_map (fun b => [b / 16; b mod 16]) bs.
(** bit [k] of a byte string, least significant bit of the first byte first *)
Definition bit (h : list Z) (k : Z) : bool := Z.testbit (nth (Z.to_nat (k / 8)) h 0) (k mod 8).
(** CEP-57: the [k]-th letter is upper case iff bit [k] of the checksum is set *)
Fixpoint hex_cased (h : list Z) (k : Z) (ns : list Z) : list Z :=
  match ns with
  | [] => []
  | n :: r => if n <? 10 then (48 + n) :: hex_cased h k r
              else (if bit h k then 65 + (n - 10) else 97 + (n - 10)) :: hex_cased h (k + 1) r
  end.
Definition cep57 (checksum bs : list Z) : list Z := hex_cased checksum 0 (nibbles bs).

(** A public key or account: algorithm tag as two digits, then the key, the
    checksum being the one of the key without the tag. *)
Definition key_text (H : list Z -> list Z) (tag : Z) (key : list Z) : list Z :=
  [48 + tag / 16; 48 + tag mod 16] ++ cep57 (H key) key.

(** Reading hexadecimal, any case. *)
Definition hex_digit (c : Z) : option Z :=
  if (48 <=? c) && (c <=? 57) then Some (c - 48)
  else if (65 <=? c) && (c <=? 70) then Some (c - 55)
  else if (97 <=? c) && (c <=? 102) then Some (c - 87)
  else None.
Fixpoint unhex (s : list Z) : option (list Z) :=
  match s with
  | [] => Some []
  | a :: b :: r =>
      match hex_digit a, hex_digit b, unhex r with
      | Some x, Some y, Some l => Some (16 * x + y :: l)
      | _, _, _ => None
      end
  | _ => None
  end.

(** lower-case hexadecimal *)
Definition hex_lower (bs : list Z) : list Z :=
  List.map (fun n => if n <? 10 then 48 + n else 87 + n) (nibbles bs).

End ST.
