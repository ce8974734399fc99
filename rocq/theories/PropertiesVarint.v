(** Property theorems: variable-length integers (C01-C05) and stream helpers (C42).
    Specification vocabulary: VarintSpec.v. *)
From Verif Require Import Varints VarintSpec VarintsMore.

(** C01: decoding what was encoded returns the integer and stops exactly after it, whatever
    surrounds it; every encodable integer has an encoding. *)
Theorem C01_varint_roundtrip : forall fmt v bs pre suf,
  vli_encode fmt v = Ok bs ->
  vli_decode fmt (at_data pre bs suf) = (after_data pre bs suf, Ok v).
Proof. exact varint_roundtrip. Qed.
Print Assumptions C01_varint_roundtrip.

Theorem C01_varint_domain : forall fmt v,
  (exists bs, vli_encode fmt v = Ok bs) <-> encodable fmt v.
Proof. exact varint_encode_total. Qed.
Print Assumptions C01_varint_domain.

Example C01_example :
  vli_encode LEB128 (-123456) = Ok [192; 187; 120]
  /\ vli_decode LEB128 (at_data [1; 2] [192; 187; 120] [255])
     = (after_data [1; 2] [192; 187; 120] [255], Ok (-123456)).
Proof. split; reflexivity. Qed.

(** C02: self-delimiting, prefix-free, concatenations decode to the sequence. *)
Theorem C02_varint_shape : forall fmt v bs,
  vli_encode fmt v = Ok bs ->
  exists init last, bs = init ++ [last]
    /\ Forall (fun b => 128 <= b < 256) init /\ 0 <= last < 128.
Proof. exact varint_shape. Qed.
Print Assumptions C02_varint_shape.

Theorem C02_varint_prefix_free : forall fmt v w bs bs' tl,
  vli_encode fmt v = Ok bs -> vli_encode fmt w = Ok bs' -> bs' = bs ++ tl ->
  v = w /\ tl = [].
Proof. exact varint_prefix_free. Qed.
Print Assumptions C02_varint_prefix_free.

Theorem C02_varint_sequence : forall fmt vs bss pre suf,
  mapM (vli_encode fmt) vs = Ok bss ->
  decode_many fmt (length vs) (at_data pre (concat bss) suf)
  = (after_data pre (concat bss) suf, Ok vs).
Proof. exact varint_sequence. Qed.
Print Assumptions C02_varint_sequence.

Example C02_example :
  mapM (vli_encode VLQ) [5; 300; 0; 2097151] = Ok [[5]; [130; 44]; [0]; [255; 255; 127]].
Proof. reflexivity. Qed.

(** C03: exactly the negative integers are rejected by the unsigned schemes.
    (The field-level half is C03_vli_field_rejects in PropertiesLeaf.v.) *)
Theorem C03_unsigned_rejects : forall fmt v,
  fmt = VLQ \/ fmt = ULEB128 ->
  (v < 0 -> vli_encode fmt v = Raise EValueErr)
  /\ (0 <= v -> exists bs, vli_encode fmt v = Ok bs).
Proof. exact varint_reject. Qed.
Print Assumptions C03_unsigned_rejects.

Theorem C03_signed_total : forall fmt v,
  fmt = COMPACT_INDICES \/ fmt = LEB128 -> exists bs, vli_encode fmt v = Ok bs.
Proof. exact varint_signed_total. Qed.
Print Assumptions C03_signed_total.

Example C03_example : vli_encode VLQ (-1) = Raise EValueErr
  /\ vli_encode COMPACT_INDICES (-1) = Ok [65].
Proof. split; reflexivity. Qed.

(** C04: minimality, and its exact exception for LEB128. *)
Theorem C04_minimal : forall fmt v bs other,
  fmt <> LEB128 -> vli_encode fmt v = Ok bs -> bytes_ok other ->
  vli_decode fmt (mkStream other 0) = (mkStream other (length other), Ok v) ->
  zlen bs <= zlen other.
Proof. exact varint_minimal. Qed.
Print Assumptions C04_minimal.

Theorem C04_leb128_minimal : forall v bs other,
  vli_encode LEB128 v = Ok bs -> bytes_ok other ->
  vli_decode LEB128 (mkStream other 0) = (mkStream other (length other), Ok v) ->
  (forall k, 1 <= k -> v <> - 2 ^ (7 * k - 1)) ->
  zlen bs <= zlen other.
Proof. exact varint_leb_minimal. Qed.
Print Assumptions C04_leb128_minimal.

(** On each exceptional value the encoder uses k+1 bytes and the optimum is exactly k. *)
Theorem C04_leb128_exception : forall k,
  1 <= k ->
  exists bs other,
    vli_encode LEB128 (- 2 ^ (7 * k - 1)) = Ok bs /\ zlen bs = k + 1
    /\ bytes_ok other /\ zlen other = k
    /\ vli_decode LEB128 (mkStream other 0)
       = (mkStream other (length other), Ok (- 2 ^ (7 * k - 1)))
    /\ forall other',
         bytes_ok other' ->
         vli_decode LEB128 (mkStream other' 0)
         = (mkStream other' (length other'), Ok (- 2 ^ (7 * k - 1))) ->
         k <= zlen other'.
Proof. exact varint_leb_exception. Qed.
Print Assumptions C04_leb128_exception.

Example C04_example :
  vli_encode LEB128 (-64) = Ok [192; 127]
  /\ vli_decode LEB128 (mkStream [64] 0) = (mkStream [64] 1, Ok (-64)).
Proof. split; reflexivity. Qed.

(** C05: decoders are total; they stop at the first byte below 128 and return the
    positional value, or raise UnexpectedEOFError having consumed everything. *)
Theorem C05_decode_total : forall fmt s,
  bytes_ok (rest s) ->
  (forall init last suf,
     rest s = init ++ [last] ++ suf ->
     Forall (fun b => 128 <= b < 256) init -> 0 <= last < 128 ->
     vli_decode fmt s
     = (advance s (length init + 1), Ok (spec_value fmt (init ++ [last]))))
  /\ (Forall (fun b => 128 <= b < 256) (rest s) ->
      vli_decode fmt s
      = (advance s (length (rest s)),
         Raise (EUnexpectedEOF None 1 (tell s + zlen (rest s)))))
  /\ ((exists init last suf,
         rest s = init ++ [last] ++ suf
         /\ Forall (fun b => 128 <= b < 256) init /\ 0 <= last < 128)
      \/ Forall (fun b => 128 <= b < 256) (rest s)).
Proof. exact varint_decode_total. Qed.
Print Assumptions C05_decode_total.

Example C05_example :
  vli_decode COMPACT_INDICES (mkStream [9; 0xC1; 0x02; 77] 1)
  = (mkStream [9; 0xC1; 0x02; 77] 3, Ok (-130))
  /\ vli_decode VLQ (mkStream [0x80; 0x81] 0)
     = (mkStream [0x80; 0x81] 2, Raise (EUnexpectedEOF None 1 2)).
Proof. split; reflexivity. Qed.

(** C42: helpers. *)
Theorem C42_read_write_int : forall v n sg e bs pre suf,
  write_int v n sg e = (bs, Ok tt) ->
  zlen bs = n
  /\ read_int n sg e (at_data pre bs suf) = (after_data pre bs suf, Ok v).
Proof. exact read_write_int. Qed.
Print Assumptions C42_read_write_int.

Theorem C42_write_int_fail : forall v n sg e out x,
  write_int v n sg e = (out, Raise x) ->
  out = [] /\ ((x = EValueErr /\ n < 0) \/ (x = EOverflow /\ 0 <= n /\ fits sg n v = false)).
Proof. exact write_int_fail. Qed.
Print Assumptions C42_write_int_fail.

Theorem C42_write_read_int : forall bs sg e pre suf,
  bytes_ok bs ->
  exists v, read_int (zlen bs) sg e (at_data pre bs suf) = (after_data pre bs suf, Ok v)
    /\ write_int v (zlen bs) sg e = (bs, Ok tt).
Proof. exact write_read_int. Qed.
Print Assumptions C42_write_read_int.

Theorem C42_read_int_eof : forall s n sg e,
  zlen (rest s) < n ->
  read_int n sg e s
  = (mkStream (s_data s) (s_pos s + length (rest s)),
     Raise (EUnexpectedEOF None n (tell s))).
Proof. exact read_int_eof. Qed.
Print Assumptions C42_read_int_eof.

Theorem C42_peek_bytes : forall s n short,
  0 <= n ->
  peek_bytes n short s
  = (s, if negb short && (zlen (rest s) <? n) then Raise EEOF
        else Ok (firstn (Z.to_nat n) (rest s))).
Proof. exact peek_bytes_spec. Qed.
Print Assumptions C42_peek_bytes.

Theorem C42_iter_bytes : forall max s,
  let k := match max with
           | None => length (rest s)
           | Some m => Nat.min (Z.to_nat m) (length (rest s))
           end in
  iter_bytes_all (S (length (rest s))) max 0 s = Some (firstn k (rest s), advance s k).
Proof. exact iter_bytes_spec. Qed.
Print Assumptions C42_iter_bytes.

Example C42_example :
  write_int (-2) 3 true Big = ([255; 255; 254], Ok tt)
  /\ peek_bytes 2 false (mkStream [1; 2; 3] 1) = (mkStream [1; 2; 3] 1, Ok [2; 3])
  /\ iter_bytes_all 4 (Some 2) 0 (mkStream [1; 2; 3] 0) = Some ([1; 2], mkStream [1; 2; 3] 2).
Proof. repeat split; reflexivity. Qed.
