(** crypto.c: hex and checksum encodings. *)
From Verif Require Import Base Zxlib.

Definition BLAKE2B_256_SIZE := 32.
Definition MAX_NIBBLE_LEN := 100.  (* crypto.c 26 *)

(** crypto.c 31: HEX_CHARS *)
Definition HEX_CHARS : list Z := str "0123456789abcdef".

(** crypto.c 318-323: bytes_to_nibbles *)
Fixpoint bytes_to_nibbles (bs : list Z) : list Z :=
  match bs with [] => [] | b :: r => Z.shiftr b 4 :: Z.land b 15 :: bytes_to_nibbles r end.

(** crypto.c 316: is_alphabetic *)
Definition is_alphabetic (c : Z) : bool :=
  ((97 <=? c) && (c <=? 122)) || ((65 <=? c) && (c <=? 90)).

(** crypto.c 305-314: get_next_hash_bit; the pair (index, offset) is threaded.
    The C expression shifts a possibly negative char; only bit 0 of the result
    is used, which is bit [offset] of the byte. *)
Definition get_next_hash_bit (h : list Z) (index offset : Z) : option (bool * Z * Z) :=
  match rd h index with
  | None => None
  | Some b =>
      let bit := Z.testbit b offset in
      let offset' := offset + 1 in
      if 8 <=? offset' then Some (bit, index + 1, 0) else Some (bit, index, offset')
  end.

(** The loop shared by encode (crypto.c 264-275) and encode_hex (291-301). *)
Fixpoint encode_loop (h nibbles : list Z) (index offset : Z) : outcome (list Z) :=
  match nibbles with
  | [] => Ret []
  | n :: r =>
      match rd HEX_CHARS n with
      | None => Fail 1 (* zxerr_out_of_bounds; the model only distinguishes failure *)
      | Some c =>
          if is_alphabetic c then
            match get_next_hash_bit h index offset with
            | None => Undef OobRead
            | Some (bit, index', offset') =>
                match encode_loop h r index' offset' with
                | Ret s => Ret ((if bit then to_uppercase c else to_lowercase c) :: s)
                | x => x
                end
            end
          else
            match encode_loop h r index offset with
            | Ret s => Ret (c :: s)
            | x => x
            end
      end
  end.

(** crypto.c 250-277: encode(address, addressLen, encodedAddr).
    [bs] are the addressLen bytes (addressLen is uint8_t). nibblesLen is
    uint8_t, so 2*addressLen wraps; bytes_to_nibbles then writes
    2*addressLen bytes into a 100-byte array. *)
Definition encode (H : list Z -> list Z) (bs : list Z) : outcome (list Z) :=
  let addressLen := zlen bs in
  let nibblesLen := u8 (2 * addressLen) in
  if MAX_NIBBLE_LEN <? nibblesLen then Fail 1 (* zxerr_encoding_failed *)
  else if MAX_NIBBLE_LEN <? 2 * addressLen then Undef OobWrite
  else encode_loop (H bs) (bytes_to_nibbles bs) 0 0.

(** crypto.c 241-248: encode_addr into an array of [cap] bytes (zero filled);
    the result is the characters written and whether the call succeeded. *)
Definition encode_addr (H : list Z -> list Z) (cap : Z) (bs : list Z) : outcome (list Z * bool) :=
  match bs with
  | [] => Undef OobRead
  | b :: r =>
      let p := [Z.shiftr b 4 + 48; Z.land b 15 + 48] in
      match encode H r with
      | Ret s => if cap <? 2 + zlen s then Undef OobWrite else Ret (p ++ s, true)
      | Fail _ => Ret (p, false)
      | Undef u => Undef u
      end
  end.

(** crypto.c 279-303: encode_hex; the case bits come from the bytes themselves. *)
Definition encode_hex (bs : list Z) (outputLen : Z) : outcome (list Z) :=
  if (BLAKE2B_256_SIZE <? zlen bs) || (outputLen <? 2 * zlen bs) then Fail 1
  else encode_loop bs (bytes_to_nibbles bs) 0 0.
