(** The parts of the standard [uuid] module used by UUID4 (stringlike.py:255-272).
    A UUID is its 128-bit integer value. *)
From Verif Require Export Codecs.

Inductive uuid_format := BINARY_VARIANT_1 | BINARY_VARIANT_2 | CANONICAL_STRING | HEX_STRING.

(** stringlike.py:232-237 *)
Definition uuid_size (fmt : uuid_format) : Z :=
  match fmt with
  | BINARY_VARIANT_1 | BINARY_VARIANT_2 => 16
  | CANONICAL_STRING => 36
  | HEX_STRING => 32
  end.

(** [UUID.bytes]: [self.int.to_bytes(16, 'big')] *)
Definition uuid_bytes (u : Z) : list Z := rev (le_bytes 16 u).

(** [UUID.bytes_le]: [bytes[4-1::-1] + bytes[6-1:4-1:-1] + bytes[8-1:6-1:-1] + bytes[8:]];
    [UUID(bytes_le=b)] applies the same permutation. *)
Definition swap_le (b : list Z) : list Z :=
  rev (firstn 4 b) ++ rev (firstn 2 (skipn 4 b)) ++ rev (firstn 2 (skipn 6 b)) ++ skipn 8 b.

(** Lower-case hex digit (ASCII code) of 0..15. *)
Definition hex_digit (d : Z) : Z := if d <? 10 then 48 + d else 87 + d.

Fixpoint hex_be (n : nat) (v : Z) : list Z :=
  match n with
  | O => []
  | S n' => hex_be n' (v / 16) ++ [hex_digit (v mod 16)]
  end.

(** [UUID.hex]: ['%032x' % self.int] as ASCII codes. *)
Definition uuid_hex (u : Z) : list Z := hex_be 32 u.

(** [str(uuid)]: '%s-%s-%s-%s-%s' of hex[:8], hex[8:12], hex[12:16], hex[16:20], hex[20:] *)
Definition uuid_str (u : Z) : list Z :=
  let h := uuid_hex u in
  firstn 8 h ++ [45] ++ firstn 4 (skipn 8 h) ++ [45] ++ firstn 4 (skipn 12 h)
  ++ [45] ++ firstn 4 (skipn 16 h) ++ [45] ++ skipn 20 h.

(** Value of one hex digit in [int(s, 16)]. *)
Definition hex_val (ch : Z) : option Z :=
  if (48 <=? ch) && (ch <=? 57) then Some (ch - 48)
  else if (97 <=? ch) && (ch <=? 102) then Some (ch - 87)
  else if (65 <=? ch) && (ch <=? 70) then Some (ch - 55)
  else None.

Fixpoint starts_with (p s : list Z) : option (list Z) :=
  match p, s with
  | [], _ => Some s
  | x :: p', y :: s' => if x =? y then starts_with p' s' else None
  | _ :: _, [] => None
  end.

(** [s.replace(pat, '')] for a non-empty pattern, left to right, non-overlapping. *)
Fixpoint str_remove (fuel : nat) (pat s : list Z) : list Z :=
  match fuel with
  | O => s
  | S fuel' =>
    match s with
    | [] => []
    | ch :: s' =>
      match starts_with pat s with
      | Some s'' => str_remove fuel' pat s''
      | None => ch :: str_remove fuel' pat s'
      end
    end
  end.
Definition str_replace_empty (pat s : list Z) : list Z := str_remove (length s) pat s.

(** [s.strip(chars)] given a membership test. *)
Fixpoint lstrip (p : Z -> bool) (s : list Z) : list Z :=
  match s with [] => [] | ch :: s' => if p ch then lstrip p s' else s end.
Definition strip (p : Z -> bool) (s : list Z) : list Z := rev (lstrip p (rev (lstrip p s))).

(** ASCII whitespace as recognised by [int()]. *)
Definition is_space (ch : Z) : bool :=
  ((9 <=? ch) && (ch <=? 13)) || (ch =? 32).

(** digits with single underscores between them *)
Fixpoint hex_digits (s : list Z) (acc : Z) (prev_digit : bool) : option Z :=
  match s with
  | [] => if prev_digit then Some acc else None
  | ch :: s' =>
    if ch =? 95 then (if prev_digit then hex_digits s' acc false else None)
    else match hex_val ch with
         | Some d => hex_digits s' (acc * 16 + d) true
         | None => None
         end
  end.

(** [int(s, 16)] on ASCII text: optional whitespace, sign, '0x' prefix; [None] is
    ValueError. *)
Definition int_base16 (s : list Z) : option Z :=
  let s := strip is_space s in
  let '(neg, s) := match s with
                   | 43 :: s' => (false, s')
                   | 45 :: s' => (true, s')
                   | _ => (false, s)
                   end in
  let '(pref, s) := match s with
                    | 48 :: 120 :: s' | 48 :: 88 :: s' => (true, s')
                    | _ => (false, s)
                    end in
  (* after a base prefix one leading underscore is allowed *)
  let s := match pref, s with true, 95 :: s' => s' | _, _ => s end in
  match hex_digits s 0 false with
  | Some v => Some (if neg then - v else v)
  | None => None
  end.

Definition chars_urn : list Z := [117; 114; 110; 58].
Definition chars_uuid : list Z := [117; 117; 105; 100; 58].

(** [UUID(hex=s)] on ASCII text *)
Definition uuid_of_hex (s : list Z) : res Z :=
  let h := str_replace_empty chars_uuid (str_replace_empty chars_urn s) in
  let h := str_replace_empty [45] (strip (fun ch => (ch =? 123) || (ch =? 125)) h) in
  if negb (zlen h =? 32) then Raise EValueErr
  else match int_base16 h with
       | None => Raise EValueErr
       | Some v => if (0 <=? v) && (v <? 2 ^ 128) then Ok v else Raise EValueErr
       end.

(** stringlike.py:262-274 [UUID4._do_dump]: the bytes written *)
Definition uuid_dump (fmt : uuid_format) (u : Z) : list Z :=
  match fmt with
  | BINARY_VARIANT_1 => uuid_bytes u
  | BINARY_VARIANT_2 => swap_le (uuid_bytes u)
  | CANONICAL_STRING => uuid_str u
  | HEX_STRING => uuid_hex u
  end.

(** stringlike.py:255-259: conversion of the [size] bytes read *)
Definition uuid_parse (fmt : uuid_format) (raw : list Z) : res Z :=
  match fmt with
  | BINARY_VARIANT_1 => Ok (le_value (rev raw))
  | BINARY_VARIANT_2 => Ok (le_value (rev (swap_le raw)))
  | CANONICAL_STRING | HEX_STRING => do s <- decode Ascii raw; uuid_of_hex s
  end.
