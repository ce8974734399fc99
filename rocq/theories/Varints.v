(** Model of /repo/binobj/varints.py: the four variable-length integer encodings. *)
From Verif Require Export Stream.

(** varints.py:52-54 [_read_uint8]; the byte order of a single byte is irrelevant, we
    write [Little] for [sys.byteorder]. *)
Definition read_uint8 : loader Z := read_int 1 false Little.

(** [int(math.ceil(a / 7))].  Simplification: the Python code goes through a float, which is
    exact for the bit counts of any integer below 2^(2^50). *)
Definition ceil_div7 (a : Z) : Z := - ((- a) / 7).

(** [buf[-1] &= 0x7F] *)
Fixpoint clear_last (buf : list Z) : list Z :=
  match buf with
  | [] => []
  | [b] => [Z.land b 127]
  | b :: buf' => b :: clear_last buf'
  end.

(** The descending loop [for i in range(n-1, -1, -1): buf[i] = 0x80 | (value & 0x7F);
    value >>= 7]: fills [n] slots from the back.  Returns the filled slots and the final
    [value]. (varints.py:79-81 and 134-136) *)
Fixpoint fill_back (n : nat) (value : Z) (acc : list Z) : list Z * Z :=
  match n with
  | O => (acc, value)
  | S n' => fill_back n' (Z.shiftr value 7) (Z.lor 128 (Z.land value 127) :: acc)
  end.

(** varints.py:57-86 *)
Definition encode_integer_compact (value : Z) : res (list Z) :=
  if value =? 0 then Ok [0]
  else
    let sign_bit := if value <? 0 then 64 else 0 in
    let value := if value <? 0 then - value else value in
    let n_bits := bit_length value in
    let n_bytes := 1 + ceil_div7 (n_bits - 6) in
    let '(tail, value) := fill_back (Z.to_nat (n_bytes - 1)) value [] in
    Ok (clear_last (Z.lor (Z.lor 128 sign_bit) (Z.land value 63) :: tail)).

(** varints.py:115-139 *)
Definition encode_integer_vlq (value : Z) : res (list Z) :=
  if value <? 0 then Raise EValueErr
  else if value =? 0 then Ok [0]
  else
    let n_bits := bit_length value in
    let n_bytes := ceil_div7 n_bits in
    Ok (clear_last (fst (fill_back (Z.to_nat n_bytes) value []))).

(** varints.py:176-179, the [while value > 0] loop; fuel is the number of iterations
    allowed ([None] when exhausted, excluded by the proofs). *)
Fixpoint uleb_loop (fuel : nat) (value : Z) : option (list Z) :=
  if 0 <? value then
    match fuel with
    | O => None
    | S fuel' =>
      let continue_bit := if 127 <? value then 128 else 0 in
      match uleb_loop fuel' (Z.shiftr value 7) with
      | None => None
      | Some out => Some (Z.lor continue_bit (Z.land value 127) :: out)
      end
    end
  else Some [].

(** varints.py:159-181.  The loop runs at most [bit_length value] times. *)
Definition encode_integer_uleb128 (value : Z) : res (list Z) :=
  if value <? 0 then Raise EValueErr
  else if value =? 0 then Ok [0]
  else match uleb_loop (Z.to_nat (bit_length value)) value with
       | Some out => Ok out
       | None => OOF
       end.

(** varints.py:232-234: ascending loop, [n] slots. *)
Fixpoint fill_fwd (n : nat) (value : Z) : list Z :=
  match n with
  | O => []
  | S n' => Z.lor 128 (Z.land value 127) :: fill_fwd n' (Z.shiftr value 7)
  end.

(** varints.py:204-238 *)
Definition encode_integer_leb128 (value : Z) : res (list Z) :=
  if value =? 0 then Ok [0]
  else
    let n_bits := bit_length value + 1 in
    let n_bits := if n_bits mod 7 =? 0 then n_bits else n_bits + (7 - n_bits mod 7) in
    let mask := Z.shiftl 1 n_bits - 1 in
    let value := Z.land value mask in
    Ok (clear_last (fill_fwd (Z.to_nat (n_bits / 7)) value)).

(** The [while True] loops of the decoders terminate because each iteration reads a byte
    or raises; fuel [S (number of remaining bytes)] always suffices (proved). *)

(** varints.py:100-112; [sign] is None before the first byte. *)
Fixpoint decode_compact_loop (fuel : nat) (sign : option Z) (value : Z) : loader Z :=
  match fuel with
  | O => fun s => (s, OOF)
  | S fuel' =>
    ldo int8 <- read_uint8;
    let '(value, sign) :=
      match sign with
      | None => (Z.land int8 63, if Z.land int8 64 =? 0 then 1 else -1)
      | Some sg => (Z.lor (Z.shiftl value 7) (Z.land int8 127), sg)
      end in
    if Z.land int8 128 =? 0 then lret (value * sign)
    else decode_compact_loop fuel' (Some sign) value
  end.

(** varints.py:89-112 *)
Definition decode_integer_compact : loader Z := fun s =>
  decode_compact_loop (S (length (rest s))) None 0 s.

(** varints.py:151-156 *)
Fixpoint decode_vlq_loop (fuel : nat) (value : Z) : loader Z :=
  match fuel with
  | O => fun s => (s, OOF)
  | S fuel' =>
    ldo int8 <- read_uint8;
    let value := Z.lor (Z.shiftl value 7) (Z.land int8 127) in
    if Z.land int8 128 =? 0 then lret value else decode_vlq_loop fuel' value
  end.

(** varints.py:142-156 *)
Definition decode_integer_vlq : loader Z := fun s =>
  decode_vlq_loop (S (length (rest s))) 0 s.

(** varints.py:195-201 *)
Fixpoint decode_uleb_loop (fuel : nat) (value bits_read : Z) : loader Z :=
  match fuel with
  | O => fun s => (s, OOF)
  | S fuel' =>
    ldo int8 <- read_uint8;
    let value := Z.lor value (Z.shiftl (Z.land int8 127) bits_read) in
    let bits_read := bits_read + 7 in
    if Z.land int8 128 =? 0 then lret value else decode_uleb_loop fuel' value bits_read
  end.

(** varints.py:184-201 *)
Definition decode_integer_uleb128 : loader Z := fun s =>
  decode_uleb_loop (S (length (rest s))) 0 0 s.

(** varints.py:241-262 *)
Definition decode_integer_leb128 : loader Z := fun s =>
  let starting_offset := tell s in
  match decode_integer_uleb128 s with
  | (s', Ok value) =>
    if value =? 0 then (s', Ok 0)
    else
      let n_bytes_read := tell s' - starting_offset in
      let n_bits_read := n_bytes_read * 7 in
      let n_value_bits := bit_length value in
      if n_value_bits <? n_bits_read then (s', Ok value)
      else (s', Ok (- (Z.shiftl 1 n_bits_read - value)))
  | (s', r) => (s', r)
  end.

(** varints.py:283-308 [INTEGER_ENCODING_MAP].  Keys: the VarIntEncoding enum. *)
Inductive vli_format := COMPACT_INDICES | LEB128 | ULEB128 | VLQ.

Definition vli_encode (fmt : vli_format) : Z -> res (list Z) :=
  match fmt with
  | COMPACT_INDICES => encode_integer_compact
  | LEB128 => encode_integer_leb128
  | ULEB128 => encode_integer_uleb128
  | VLQ => encode_integer_vlq
  end.

Definition vli_decode (fmt : vli_format) : loader Z :=
  match fmt with
  | COMPACT_INDICES => decode_integer_compact
  | LEB128 => decode_integer_leb128
  | ULEB128 => decode_integer_uleb128
  | VLQ => decode_integer_vlq
  end.

Definition vli_endian (fmt : vli_format) : endian :=
  match fmt with COMPACT_INDICES | VLQ => Big | LEB128 | ULEB128 => Little end.

Definition vli_signed (fmt : vli_format) : bool :=
  match fmt with COMPACT_INDICES | LEB128 => true | ULEB128 | VLQ => false end.
