(** Property theorems: fields that contain no other field (C03, C06-C16).
    Vocabulary: Spec.v ([takes], [accepts], [plain], [declared_size], [int_range]) and
    VarintSpec.v ([at_data], [after_data]). *)
From Verif Require Import StructModel Spec VarintSpec LeafMore.
From Verif Require Import CodecsProofs.

(** A concrete configuration used by the examples: a field named "x". *)
Definition cfg (s : sizespec) : fconf := basic "x" s.
Lemma cfg_takes s v : takes (cfg s) v.
Proof. repeat split; constructor. Qed.

(** C03, field level: a negative number in an unsigned variable-length field. *)
Theorem C03_vli_field_rejects : forall E n c fmt mx z ctx d,
  fmt = VLQ \/ fmt = ULEB128 -> z < 0 -> accepts c (VInt z) ->
  field_to_stream E n (Field c (KVli fmt mx)) (VInt z) ctx d
  = ([], Raise (EUnserializable (c_name c))).
Proof. exact vli_field_rejects. Qed.
Print Assumptions C03_vli_field_rejects.

Example C03_field_example :
  field_to_stream [] 0 (Field (cfg SNone) (KVli VLQ None)) (VInt (-1)) VNone []
  = ([], Raise (EUnserializable (Some "x"%string))).
Proof. reflexivity. Qed.

(** C01 at field level: what a VariableLengthInteger dumps, it loads back. *)
Theorem C01_vli_field_roundtrip : forall E E' n n' c fmt mx z ctx ctx' d d' bs pre suf,
  takes c (VInt z) ->
  field_to_stream E n (Field c (KVli fmt mx)) (VInt z) ctx d = (bs, Ok tt) ->
  field_from_stream E' n' (Field c (KVli fmt mx)) ctx' d' (at_data pre bs suf)
  = (after_data pre bs suf, Ok (VInt z)).
Proof. exact vli_field_roundtrip. Qed.
Print Assumptions C01_vli_field_roundtrip.

(** C06 *)
Theorem C06_integer_roundtrip : forall E E' fuel fuel' c sg e n v ctx ctx' d d' bs pre suf,
  c_size c = SInt n -> takes c (VInt v) ->
  field_to_stream E fuel (Field c (KInt sg e)) (VInt v) ctx d = (bs, Ok tt) ->
  zlen bs = n
  /\ field_from_stream E' fuel' (Field c (KInt sg e)) ctx' d' (at_data pre bs suf)
     = (after_data pre bs suf, Ok (VInt v)).
Proof. exact integer_roundtrip. Qed.
Print Assumptions C06_integer_roundtrip.

(** Byte [i] of the little-endian form (floor division: two's complement for negatives). *)
Theorem C06_integer_layout : forall E fuel c sg n v ctx d bs i,
  c_size c = SInt n -> accepts c (VInt v) ->
  field_to_stream E fuel (Field c (KInt sg Little)) (VInt v) ctx d = (bs, Ok tt) ->
  0 <= i < n -> nth_error bs (Z.to_nat i) = Some ((v / 256 ^ i) mod 256).
Proof. exact integer_layout. Qed.
Print Assumptions C06_integer_layout.

Theorem C06_integer_big_is_reversed : forall E fuel c sg n v ctx d,
  c_size c = SInt n -> accepts c (VInt v) ->
  field_to_stream E fuel (Field c (KInt sg Big)) (VInt v) ctx d
  = (rev (fst (field_to_stream E fuel (Field c (KInt sg Little)) (VInt v) ctx d)),
     snd (field_to_stream E fuel (Field c (KInt sg Little)) (VInt v) ctx d)).
Proof. exact integer_big. Qed.
Print Assumptions C06_integer_big_is_reversed.

Example C06_example :
  field_to_stream [] 0 (Field (cfg (SInt 3)) (KInt true Big)) (VInt (-2)) VNone []
  = ([255; 255; 254], Ok tt)
  /\ field_from_stream [] 1 (Field (cfg (SInt 3)) (KInt true Big)) VNone []
       (at_data [7] [255; 255; 254] [9; 9])
     = (after_data [7] [255; 255; 254] [9; 9], Ok (VInt (-2))).
Proof. split; reflexivity. Qed.

(** C07 *)
Theorem C07_integer_in_range : forall E fuel c sg e n v ctx d,
  c_size c = SInt n -> 0 <= n -> accepts c (VInt v) -> int_range sg n v ->
  exists bs, field_to_stream E fuel (Field c (KInt sg e)) (VInt v) ctx d = (bs, Ok tt)
             /\ zlen bs = n.
Proof. exact integer_in_range. Qed.
Print Assumptions C07_integer_in_range.

Theorem C07_integer_out_of_range : forall E fuel c sg e n v ctx d,
  c_size c = SInt n -> 0 <= n -> accepts c (VInt v) -> ~ int_range sg n v ->
  field_to_stream E fuel (Field c (KInt sg e)) (VInt v) ctx d
  = ([], Raise (EUnserializable (c_name c))).
Proof. exact integer_out_of_range. Qed.
Print Assumptions C07_integer_out_of_range.

Example C07_example :
  int_range true 2 (-32768) /\ ~ int_range true 2 32768 /\ int_range false 2 65535
  /\ ~ int_range false 2 (-1)
  /\ field_to_stream [] 0 (Field (cfg (SInt 2)) (KInt true Little)) (VInt 32768) VNone []
     = ([], Raise (EUnserializable (Some "x"%string)))
  /\ field_to_stream [] 0 (Field (cfg (SInt 2)) (KInt true Little)) (VInt (-32768)) VNone []
     = ([0; 128], Ok tt).
Proof. unfold int_range. repeat split; lia. Qed.

(** C08 *)
Theorem C08_integer_bijection : forall E fuel c sg e ctx d bs pre suf,
  c_size c = SInt (zlen bs) -> plain c -> bytes_ok bs ->
  exists v, int_range sg (zlen bs) v
    /\ field_from_stream E fuel (Field c (KInt sg e)) ctx d (at_data pre bs suf)
       = (after_data pre bs suf, Ok (VInt v))
    /\ field_to_stream E fuel (Field c (KInt sg e)) (VInt v) ctx d = (bs, Ok tt).
Proof. exact integer_bijection. Qed.
Print Assumptions C08_integer_bijection.

Example C08_example : plain (cfg (SInt 4)) /\ bytes_ok [1; 255; 0; 128].
Proof. split; [repeat split; constructor|]. repeat (constructor; [split; [discriminate|reflexivity]|]). constructor. Qed.

(** C09 *)
Theorem C09_short_input : forall E n c k size ctx d s,
  match k with
  | KInt _ _ | KBytes | KString _ _ | KFloat _ _ | KTime _ _ _ _ => True
  | _ => False
  end ->
  c_size c = SInt size -> always_present c -> c_null c = VUndefined ->
  zlen (rest s) < size ->
  field_from_stream E n (Field c k) ctx d s
  = (advance s (length (rest s)), Raise (EUnexpectedEOF (c_name c) size (tell s))).
Proof. exact short_input. Qed.
Print Assumptions C09_short_input.

(** The size is the value of another field. *)
Theorem C09_short_input_ref : forall E n c k size ctx d s,
  match k with KBytes | KString _ _ | KTime _ _ _ _ => True | _ => False end ->
  declared_size c d size -> always_present c -> c_null c = VUndefined ->
  zlen (rest s) < size ->
  field_from_stream E n (Field c k) ctx d s
  = (advance s (length (rest s)), Raise (EUnexpectedEOF (c_name c) size (tell s))).
Proof. exact short_input_ref. Qed.
Print Assumptions C09_short_input_ref.

(** UUID4 reports the offset after the truncated data instead of the field's start. *)
Theorem C09_short_input_uuid : forall E n c fmt size ctx d s,
  c_size c = SInt size -> always_present c -> c_null c = VUndefined ->
  zlen (rest s) < size ->
  field_from_stream E n (Field c (KUuid fmt)) ctx d s
  = (advance s (length (rest s)),
     Raise (EUnexpectedEOF (c_name c) size (tell s + zlen (rest s)))).
Proof. exact short_input_uuid. Qed.
Print Assumptions C09_short_input_uuid.

Example C09_example :
  field_from_stream [] 0 (Field (cfg (SInt 4)) (KInt false Little)) VNone []
    (mkStream [0; 1; 2; 3] 2)
  = (mkStream [0; 1; 2; 3] 4, Raise (EUnexpectedEOF (Some "x"%string) 4 2))
  /\ field_from_stream [] 0 (Field (cfg (SRef "n")) KBytes) VNone [("n"%string, VInt 5)]
    (mkStream [0; 1; 2; 3] 2)
  = (mkStream [0; 1; 2; 3] 4, Raise (EUnexpectedEOF (Some "x"%string) 5 2)).
Proof. split; reflexivity. Qed.

(** C10 *)
Theorem C10_max_bytes_dump : forall E n c fmt m z ctx d bs,
  accepts c (VInt z) ->
  field_to_stream E n (Field c (KVli fmt (Some m))) (VInt z) ctx d = (bs, Ok tt) ->
  vli_encode fmt z = Ok bs /\ zlen bs <= m.
Proof. exact vli_max_bytes. Qed.
Print Assumptions C10_max_bytes_dump.

Theorem C10_max_bytes_reject : forall E n c fmt m z ctx d bs,
  accepts c (VInt z) -> vli_encode fmt z = Ok bs -> m < zlen bs ->
  field_to_stream E n (Field c (KVli fmt (Some m))) (VInt z) ctx d
  = ([], Raise (EValueSize (c_name c))).
Proof. exact vli_max_bytes_reject. Qed.
Print Assumptions C10_max_bytes_reject.

Theorem C10_max_bytes_ignored_on_load : forall E n c fmt m ctx d s,
  always_present c -> c_null c = VUndefined ->
  field_from_stream E n (Field c (KVli fmt (Some m))) ctx d s
  = field_from_stream E n (Field c (KVli fmt None)) ctx d s.
Proof. exact vli_max_bytes_load. Qed.
Print Assumptions C10_max_bytes_ignored_on_load.

(** The contract "at most max_bytes bytes are read" fails. *)
Theorem C10_max_bytes_load_refuted : exists c fmt m bs v,
  plain c /\ m < zlen bs
  /\ field_from_stream [] 1 (Field c (KVli fmt (Some m))) VNone [] (mkStream bs 0)
     = (mkStream bs (length bs), Ok (VInt v)).
Proof.
  exists (cfg SNone), VLQ, 1, [130; 44], 300.
  split; [repeat split; constructor|]. split; reflexivity.
Qed.
Print Assumptions C10_max_bytes_load_refuted.

(** C11 *)
Theorem C11_bytes_dump : forall E n c size bs ctx d,
  declared_size c d size -> accepts c (VBytes bs) ->
  field_to_stream E n (Field c KBytes) (VBytes bs) ctx d
  = if zlen bs =? size then (bs, Ok tt) else ([], Raise (EValueSize (c_name c))).
Proof. exact bytes_to_stream. Qed.
Print Assumptions C11_bytes_dump.

Theorem C11_bytes_load : forall E n c ctx d bs pre suf,
  declared_size c d (zlen bs) -> takes c (VBytes bs) ->
  field_from_stream E n (Field c KBytes) ctx d (at_data pre bs suf)
  = (after_data pre bs suf, Ok (VBytes bs)).
Proof. exact bytes_from_stream. Qed.
Print Assumptions C11_bytes_load.

(** A negative size: everything that is left is swallowed. *)
Theorem C11_bytes_negative_size : forall E n c size ctx d pre bs,
  declared_size c d size -> size < 0 -> takes c (VBytes bs) ->
  field_from_stream E n (Field c KBytes) ctx d (at_data pre bs [])
  = (after_data pre bs [], Ok (VBytes bs)).
Proof. exact bytes_negative_load. Qed.
Print Assumptions C11_bytes_negative_size.

Example C11_example :
  declared_size (cfg (SRef "n")) [("n"%string, VInt (-1))] (-1)
  /\ field_from_stream [] 1 (Field (cfg (SRef "n")) KBytes) VNone [("n"%string, VInt (-1))]
       (at_data [1] [2; 3] []) = (after_data [1] [2; 3] [], Ok (VBytes [2; 3]))
  /\ field_to_stream [] 1 (Field (cfg (SRef "n")) KBytes) (VBytes [2; 3]) VNone
       [("n"%string, VInt (-1))] = ([], Raise (EValueSize (Some "x"%string)))
  /\ field_to_stream [] 1 (Field (cfg (SRef "n")) KBytes) (VBytes [2; 3]) VNone
       [("n"%string, VInt 2)] = ([2; 3], Ok tt).
Proof. split; [right; eexists; split; reflexivity|]. repeat split; reflexivity. Qed.

(** C12: exactly one of the three outcomes, decided by the encoded length. *)
Theorem C12_string_dump : forall E n c cd pad size t ctx d,
  declared_size c d size -> accepts c (VStr t) ->
  (exists bs k, encode cd t = Ok bs
     /\ let out := bs ++ match pad with Some b => repeat b k | None => [] end in
        zlen out = size
        /\ field_to_stream E n (Field c (KString cd pad)) (VStr t) ctx d = (out, Ok tt))
  \/ (exists bs, encode cd t = Ok bs /\ (size < zlen bs \/ (zlen bs < size /\ pad = None))
        /\ field_to_stream E n (Field c (KString cd pad)) (VStr t) ctx d
           = ([], Raise (EValueSize (c_name c))))
  \/ (encode cd t = Raise EUnicodeEncode
      /\ field_to_stream E n (Field c (KString cd pad)) (VStr t) ctx d
         = ([], Raise EUnicodeEncode)).
Proof. exact string_dump_total. Qed.
Print Assumptions C12_string_dump.

Example C12_example :
  field_to_stream [] 0 (Field (cfg (SInt 4)) (KString Utf8 (Some 32))) (VStr [104; 233]) VNone []
  = ([104; 195; 169; 32], Ok tt)
  /\ field_to_stream [] 0 (Field (cfg (SInt 4)) (KString Utf8 None)) (VStr [104; 233]) VNone []
     = ([], Raise (EValueSize (Some "x"%string)))
  /\ field_to_stream [] 0 (Field (cfg (SInt 2)) (KString Utf8 (Some 32))) (VStr [104; 233]) VNone []
     = ([], Raise (EValueSize (Some "x"%string)))
  /\ field_to_stream [] 0 (Field (cfg (SInt 2)) (KString Ascii None)) (VStr [104; 233]) VNone []
     = ([], Raise EUnicodeEncode).
Proof. repeat split; reflexivity. Qed.

(** C13 *)
Theorem C13_string_roundtrip : forall E E' n n' c cd pad t bs ctx ctx' d d' pre suf,
  encode cd t = Ok bs -> declared_size c d (zlen bs) -> declared_size c d' (zlen bs) ->
  takes c (VStr t) ->
  field_to_stream E n (Field c (KString cd pad)) (VStr t) ctx d = (bs, Ok tt)
  /\ field_from_stream E' n' (Field c (KString cd pad)) ctx' d' (at_data pre bs suf)
     = (after_data pre bs suf, Ok (VStr t)).
Proof. exact string_roundtrip. Qed.
Print Assumptions C13_string_roundtrip.

(** Loading keeps the padding: the result is the text followed by the decoded padding. *)
Theorem C13_string_padding_kept : forall E n c cd pad ctx d t bs padding p pre suf,
  encode cd t = Ok bs -> decode (base cd) padding = Ok p ->
  declared_size c d (zlen (bs ++ padding)) -> takes c (VStr (t ++ p)) ->
  field_from_stream E n (Field c (KString cd pad)) ctx d (at_data pre (bs ++ padding) suf)
  = (after_data pre (bs ++ padding) suf, Ok (VStr (t ++ p))).
Proof. exact string_load. Qed.
Print Assumptions C13_string_padding_kept.

(** Hence "a padded String loads back as the text that was dumped" is false. *)
Theorem C13_padded_roundtrip_refuted : exists c cd pad t bs t',
  plain c
  /\ field_to_stream [] 1 (Field c (KString cd pad)) (VStr t) VNone [] = (bs, Ok tt)
  /\ field_from_stream [] 1 (Field c (KString cd pad)) VNone [] (mkStream bs 0)
     = (mkStream bs (length bs), Ok (VStr t')) /\ t <> t'.
Proof.
  exists (cfg (SInt 3)), Ascii, (Some 32), [65], [65; 32; 32], [65; 32; 32].
  split; [repeat split; constructor|]. repeat split; discriminate.
Qed.
Print Assumptions C13_padded_roundtrip_refuted.

Example C13_example :
  field_from_stream [] 1 (Field (cfg (SInt 5)) (KString (Utf16 Little) None)) VNone []
    (at_data [] [65; 0; 66; 0; 67] [1])
  = (after_data [] [65; 0; 66; 0; 67] [1], Raise EUnicodeDecode)
  /\ field_from_stream [] 1 (Field (cfg (SInt 4)) (KString (Utf16 Little) None)) VNone []
    (at_data [] [61; 216; 0; 222] [1])
  = (after_data [] [61; 216; 0; 222] [1], Ok (VStr [128512])).
Proof. split; reflexivity. Qed.

(** C14 *)
Theorem C14_stringz_roundtrip : forall E E' n n' c cd pad t ctx ctx' d d' bs pre suf,
  c_size c = SNone -> c_factory c = None -> c_default c = VUndefined ->
  oget d' (c_name c) = None -> takes c (VStr t) ->
  Forall (fun cp => cp <> 0) t ->
  field_to_stream E n (Field c (KStringZ cd pad)) (VStr t) ctx d = (bs, Ok tt) ->
  (exists text, encode cd t = Ok text /\ bs = text ++ repeat 0 (unit_width cd))
  /\ field_from_stream E' n' (Field c (KStringZ cd pad)) ctx' d' (at_data pre bs suf)
     = (after_data pre bs suf, Ok (VStr t)).
Proof. exact stringz_roundtrip. Qed.
Print Assumptions C14_stringz_roundtrip.

(** A text with an embedded NUL is written whole but loads back only up to that NUL, the
    remainder staying unread. *)
Theorem C14_stringz_embedded_nul : forall E E' n n' c cd pad t u ctx ctx' d d' bs pre,
  c_size c = SNone -> c_factory c = None -> c_default c = VUndefined ->
  oget d' (c_name c) = None -> takes c (VStr t) -> accepts c (VStr (t ++ 0 :: u)) ->
  Forall (fun cp => cp <> 0) t ->
  field_to_stream E n (Field c (KStringZ cd pad)) (VStr (t ++ 0 :: u)) ctx d = (bs, Ok tt) ->
  exists first others, bs = first ++ others /\ others <> []
    /\ encode cd (t ++ [0]) = Ok first
    /\ field_from_stream E' n' (Field c (KStringZ cd pad)) ctx' d' (at_data pre first others)
       = (after_data pre first others, Ok (VStr t)).
Proof. exact stringz_embedded_nul. Qed.
Print Assumptions C14_stringz_embedded_nul.

(** A sized StringZ: what is written, and what is read back (never the padding). *)
Theorem C14_stringz_sized_dump : forall E n c cd pad size t bs ctx d,
  declared_size c d size -> accepts c (VStr t) -> encode cd (t ++ [0]) = Ok bs ->
  field_to_stream E n (Field c (KStringZ cd pad)) (VStr t) ctx d
  = if size <? zlen bs then ([], Raise (EValueSize (c_name c)))
    else if zlen bs <? size then
      match pad with
      | Some b => (bs ++ repeat b (Z.to_nat (size - zlen bs)), Ok tt)
      | None => ([], Raise (EValueSize (c_name c)))
      end
    else (bs, Ok tt).
Proof. exact stringz_sized_to_stream. Qed.
Print Assumptions C14_stringz_sized_dump.

Theorem C14_stringz_sized_load : forall E n c cd pad size t bs ctx d pre suf,
  declared_size c d size -> takes c (VStr t) ->
  Forall (fun cp => cp <> 0) t -> encode cd (t ++ [0]) = Ok bs -> zlen bs <= size ->
  field_from_stream E n (Field c (KStringZ cd pad)) ctx d (at_data pre bs suf)
  = (after_data pre bs suf, Ok (VStr t)).
Proof. exact stringz_sized_load. Qed.
Print Assumptions C14_stringz_sized_load.

Example C14_example :
  field_to_stream [] 1 (Field (cfg SNone) (KStringZ (Utf16 Big) None))
    (VStr [65; 128512; 256]) VNone []
  = ([0; 65; 216; 61; 222; 0; 1; 0; 0; 0], Ok tt)
  /\ field_from_stream [] 1 (Field (cfg SNone) (KStringZ (Utf16 Big) None)) VNone []
       (at_data [5] [0; 65; 216; 61; 222; 0; 1; 0; 0; 0] [88; 0])
     = (after_data [5] [0; 65; 216; 61; 222; 0; 1; 0; 0; 0] [88; 0], Ok (VStr [65; 128512; 256]))
  /\ field_to_stream [] 1 (Field (cfg (SInt 4)) (KStringZ Utf8 (Some 88))) (VStr [65]) VNone []
     = ([65; 0; 88; 88], Ok tt)
  /\ field_from_stream [] 1 (Field (cfg (SInt 4)) (KStringZ Utf8 (Some 88))) VNone []
       (mkStream [65; 0; 88; 88] 0) = (mkStream [65; 0; 88; 88] 2, Ok (VStr [65])).
Proof. repeat split; reflexivity. Qed.

(** C15: the load of a text longer than the default fails; within the limit it works. *)
Theorem C15_stringz_default_limits_load : forall E n c cd pad t bs dflt dbs ctx d pre suf,
  c_size c = SNone -> c_factory c = None -> c_default c = VStr dflt ->
  oget d (c_name c) = None -> always_present c -> c_null c = VUndefined ->
  Forall (fun cp => cp <> 0) t -> encode cd (t ++ [0]) = Ok bs ->
  encode cd (dflt ++ [0]) = Ok dbs -> zlen dbs < zlen bs ->
  exists s' e, field_from_stream E n (Field c (KStringZ cd pad)) ctx d (at_data pre bs suf)
               = (s', Raise e)
    /\ (e = EDeserialization (c_name c) \/ e = EUnicodeDecode).
Proof. exact stringz_default_limit. Qed.
Print Assumptions C15_stringz_default_limits_load.

Theorem C15_stringz_default_within : forall E n c cd pad t bs dflt dbs ctx d pre suf,
  c_size c = SNone -> c_factory c = None -> c_default c = VStr dflt ->
  oget d (c_name c) = None -> takes c (VStr t) ->
  Forall (fun cp => cp <> 0) t -> encode cd (t ++ [0]) = Ok bs ->
  encode cd (dflt ++ [0]) = Ok dbs -> zlen bs <= zlen dbs ->
  field_from_stream E n (Field c (KStringZ cd pad)) ctx d (at_data pre bs suf)
  = (after_data pre bs suf, Ok (VStr t)).
Proof. exact stringz_default_within. Qed.
Print Assumptions C15_stringz_default_within.

(** The contract "a default does not change what can be loaded" fails: the field cannot load
    what it has just dumped. *)
Theorem C15_stringz_default_roundtrip_refuted : exists c cd t bs s' e,
  c_size c = SNone /\ always_present c /\ c_null c = VUndefined /\ c_const c = VUndefined
  /\ c_validators c = [] /\ Forall (fun cp => cp <> 0) t
  /\ field_to_stream [] 1 (Field c (KStringZ cd None)) (VStr t) VNone [] = (bs, Ok tt)
  /\ field_from_stream [] 1 (Field c (KStringZ cd None)) VNone [] (mkStream bs 0)
     = (s', Raise e).
Proof.
  exists (mkConf (Some "x"%string) VUndefined (VStr [65; 66]) None false VUndefined SNone []
            (fun _ _ => QRet true) VNotPresent None None None), Utf8, [65; 66; 67],
         [65; 66; 67; 0], (mkStream [65; 66; 67; 0] 3), (EDeserialization (Some "x"%string)).
  repeat split; try reflexivity. repeat (constructor; [discriminate|]). constructor.
Qed.
Print Assumptions C15_stringz_default_roundtrip_refuted.

(** C16 *)
Theorem C16_uuid_dump : forall E n c fmt u ctx d,
  c_size c = SInt (match fmt with CANONICAL_STRING => 36 | HEX_STRING => 32 | _ => 16 end) ->
  takes c (VUUID u) -> 0 <= u < 2 ^ 128 ->
  exists bs,
    field_to_stream E n (Field c (KUuid fmt)) (VUUID u) ctx d = (bs, Ok tt)
    /\ zlen bs = match fmt with CANONICAL_STRING => 36 | HEX_STRING => 32 | _ => 16 end
    /\ forall E' n' ctx' d' pre suf,
         field_from_stream E' n' (Field c (KUuid fmt)) ctx' d' (at_data pre bs suf)
         = (after_data pre bs suf, Ok (VUUID u)).
Proof. exact uuid_roundtrip. Qed.
Print Assumptions C16_uuid_dump.

(** The four layouts of the same UUID. *)
Theorem C16_uuid_layout : forall E n c1 c2 c3 c4 u ctx d,
  c_size c1 = SInt 16 -> c_size c2 = SInt 16 -> c_size c3 = SInt 32 -> c_size c4 = SInt 36 ->
  accepts c1 (VUUID u) -> accepts c2 (VUUID u) -> accepts c3 (VUUID u) -> accepts c4 (VUUID u) ->
  0 <= u < 2 ^ 128 ->
  exists b0 b1 b2 b3 b4 b5 b6 b7 tl, length tl = 8%nat /\
    let v1 := [b0; b1; b2; b3; b4; b5; b6; b7] ++ tl in
    bytes_ok v1 /\ be_value v1 = u
    /\ field_to_stream E n (Field c1 (KUuid BINARY_VARIANT_1)) (VUUID u) ctx d = (v1, Ok tt)
    /\ field_to_stream E n (Field c2 (KUuid BINARY_VARIANT_2)) (VUUID u) ctx d
       = ([b3; b2; b1; b0; b5; b4; b7; b6] ++ tl, Ok tt)
    /\ field_to_stream E n (Field c3 (KUuid HEX_STRING)) (VUUID u) ctx d = (hex_text v1, Ok tt)
    /\ field_to_stream E n (Field c4 (KUuid CANONICAL_STRING)) (VUUID u) ctx d
       = (hex_text [b0; b1; b2; b3] ++ [45] ++ hex_text [b4; b5] ++ [45] ++ hex_text [b6; b7]
          ++ [45] ++ hex_text (firstn 2 tl) ++ [45] ++ hex_text (skipn 2 tl), Ok tt).
Proof. exact uuid_layout. Qed.
Print Assumptions C16_uuid_layout.

Example C16_example :
  field_to_stream [] 1 (Field (cfg (SInt 16)) (KUuid BINARY_VARIANT_2))
    (VUUID 0x00112233445566778899aabbccddeeff) VNone []
  = ([0x33; 0x22; 0x11; 0; 0x55; 0x44; 0x77; 0x66; 0x88; 0x99; 0xaa; 0xbb; 0xcc; 0xdd; 0xee; 0xff],
     Ok tt)
  /\ 0 <= 0x00112233445566778899aabbccddeeff < 2 ^ 128.
Proof. split; [reflexivity|]. lia. Qed.
