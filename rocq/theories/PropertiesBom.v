(** C77-C78: byte order marks and code pages. *)
From Verif Require Import BomWitness.
Open Scope Z_scope.

(** C77: writing puts the mark of the machine's byte order before the text ... *)
Theorem C77_string_written : forall E n c cd mark plain pad t bs ctx d, marked_as cd mark plain ->
  plain = unmarked cd -> encode plain t = Ok bs ->
  declared_size c d (zlen mark + zlen bs) -> accepts c (VStr t) ->
  field_to_stream E n (Field c (KString cd pad)) (VStr t) ctx d = (mark ++ bs, Ok tt).
Proof. exact marked_string_dump. Qed.
Print Assumptions C77_string_written.

Theorem C77_stringz_written : forall E n c cd mark plain pad t bs ctx d, marked_as cd mark plain ->
  plain = unmarked cd -> encode plain (t ++ [0]) = Ok bs -> c_size c = SNone -> accepts c (VStr t) ->
  field_to_stream E n (Field c (KStringZ cd pad)) (VStr t) ctx d = (mark ++ bs, Ok tt).
Proof. exact marked_stringz_dump. Qed.
Print Assumptions C77_stringz_written.

(** ... and reading follows the mark, whatever the machine. *)
Theorem C77_string_read : forall E n c cd mark plain pad t bs ctx d pre suf, marked_as cd mark plain ->
  encode plain t = Ok bs -> declared_size c d (zlen mark + zlen bs) -> takes c (VStr t) ->
  field_from_stream E n (Field c (KString cd pad)) ctx d (at_data pre (mark ++ bs) suf)
  = (after_data pre (mark ++ bs) suf, Ok (VStr t)).
Proof. exact marked_string_load. Qed.
Print Assumptions C77_string_read.

Theorem C77_stringz_read : forall E n c cd mark plain pad t bs ctx d pre suf, marked_as cd mark plain ->
  Forall (fun cp => cp <> 0) t -> encode plain (t ++ [0]) = Ok bs ->
  unlimited c d \/ (exists m, declared_size c d m /\ zlen mark + zlen bs <= m) -> takes c (VStr t) ->
  field_from_stream E n (Field c (KStringZ cd pad)) ctx d (at_data pre (mark ++ bs) suf)
  = (after_data pre (mark ++ bs) suf, Ok (VStr t)).
Proof. exact marked_stringz_load. Qed.
Print Assumptions C77_stringz_read.

(** Dumping what was read gives as many bytes, and the same ones only in the machine's order. *)
Theorem C77_rewritten : forall E n n' c cd mark plain pad t bs ctx ctx' d pre suf, marked_as cd mark plain ->
  encode plain t = Ok bs -> declared_size c d (zlen mark + zlen bs) -> takes c (VStr t) ->
  exists out, field_from_stream E n (Field c (KString cd pad)) ctx d (at_data pre (mark ++ bs) suf)
      = (after_data pre (mark ++ bs) suf, Ok (VStr t))
    /\ field_to_stream E n' (Field c (KString cd pad)) (VStr t) ctx' d = (out, Ok tt)
    /\ length out = length (mark ++ bs) /\ (out = mark ++ bs <-> plain = unmarked cd).
Proof. exact string_rewritten. Qed.
Print Assumptions C77_rewritten.

(** Text without a mark: a String reads it in the machine's byte order, but cannot write it
    back at the same size; a StringZ reads it as "utf-8-sig" only. *)
Theorem C77_unmarked_string : forall E n c cd mark plain pad t bs ctx d pre suf, marked_as cd mark plain ->
  no_mark_first t -> encode (unmarked cd) t = Ok bs -> declared_size c d (zlen bs) -> takes c (VStr t) ->
  field_from_stream E n (Field c (KString cd pad)) ctx d (at_data pre bs suf)
  = (after_data pre bs suf, Ok (VStr t))
  /\ forall n' ctx', field_to_stream E n' (Field c (KString cd pad)) (VStr t) ctx' d
       = ([], Raise (EValueSize (c_name c))).
Proof. exact unmarked_string_load. Qed.
Print Assumptions C77_unmarked_string.

Theorem C77_unmarked_sig : forall E n c pad t bs ctx d pre suf, hd_error t <> Some 65279 ->
  Forall (fun cp => cp <> 0) t -> encode Utf8 (t ++ [0]) = Ok bs ->
  unlimited c d \/ (exists m, declared_size c d m /\ zlen bs <= m) -> takes c (VStr t) ->
  field_from_stream E n (Field c (KStringZ Utf8Sig pad)) ctx d (at_data pre bs suf)
  = (after_data pre bs suf, Ok (VStr t)).
Proof. exact sig_stringz_load. Qed.
Print Assumptions C77_unmarked_sig.

Theorem C77_unmarked_stringz : forall E n c cd pad t bs ctx d pre suf, two_orders cd ->
  no_mark_first t -> encode (unmarked cd) (t ++ [0]) = Ok bs ->
  unlimited c d \/ (exists m, declared_size c d m /\ zlen bs <= m) -> always_present c -> c_null c = VUndefined ->
  exists s', field_from_stream E n (Field c (KStringZ cd pad)) ctx d (at_data pre bs suf) = (s', Raise EUnicodeErr).
Proof. exact unmarked_stringz_raises. Qed.
Print Assumptions C77_unmarked_stringz.

Theorem C77_stringz_needs_mark : forall E n c cd pad ctx d s s' v, two_orders cd -> always_present c ->
  c_null c = VUndefined ->
  field_from_stream E n (Field c (KStringZ cd pad)) ctx d s = (s', Ok v) ->
  exists mark plain more, marked_as cd mark plain /\ rest s = mark ++ more.
Proof. exact stringz_needs_mark. Qed.
Print Assumptions C77_stringz_needs_mark.

(** Data that end within the mark: the missing null is reported for "utf-8-sig", an incomplete
    character for the others. *)
Theorem C77_cut_mark : forall E n c cd mark plain pad ctx d s p q, marked_as cd mark plain ->
  mark = p ++ q -> q <> [] -> p = [] \/ cd = Utf8Sig ->
  cut_after c d s p -> always_present c -> c_null c = VUndefined ->
  exists s', field_from_stream E n (Field c (KStringZ cd pad)) ctx d s = (s', Raise (EDeserialization (c_name c))).
Proof. exact cut_mark_forgiven. Qed.
Print Assumptions C77_cut_mark.

Theorem C77_cut_mark_bad : forall E n c cd mark plain pad ctx d s p q, marked_as cd mark plain ->
  mark = p ++ q -> q <> [] -> p <> [] -> two_orders cd ->
  cut_after c d s p -> always_present c -> c_null c = VUndefined ->
  exists s', field_from_stream E n (Field c (KStringZ cd pad)) ctx d s = (s', Raise EUnicodeDecode).
Proof. exact cut_mark_bad. Qed.
Print Assumptions C77_cut_mark_bad.

(** C14: likewise after some text, in any encoding: between two characters the missing null is
    reported, within one an incomplete character. *)
Theorem C14_cut : forall E n c cd pad t cp bs p q ctx d s, Forall (fun x => x <> 0) t ->
  encode cd t = Ok bs -> encode cd (t ++ [cp]) = Ok (bs ++ p ++ q) -> q <> [] ->
  cut_after c d s (bs ++ p) -> always_present c -> c_null c = VUndefined ->
  exists s', field_from_stream E n (Field c (KStringZ cd pad)) ctx d s
    = (s', Raise (match p with [] => EDeserialization (c_name c) | _ => EUnicodeDecode end)).
Proof. exact cut_stringz. Qed.
Print Assumptions C14_cut.

Example C77_cut_example :
  cut_after (basic "x" SNone) [] (mkStream [7; 239; 187] 1) [239; 187]
  /\ field_from_stream [] 1 (text_field SNone (KStringZ Utf8Sig None)) VNone [] (mkStream [7; 239; 187] 1)
     = (mkStream [7; 239; 187] 3, Raise (EDeserialization (Some "x"%string)))
  /\ field_from_stream [] 1 (text_field SNone (KStringZ (Utf16Bom Little) None)) VNone [] (mkStream [255] 0)
     = (mkStream [255] 1, Raise EUnicodeDecode)
  /\ field_from_stream [] 1 (text_field (SInt 2) (KStringZ Utf8 None)) VNone [] (mkStream [65; 195; 169; 0] 0)
     = (mkStream [65; 195; 169; 0] 2, Raise EUnicodeDecode).
Proof. exact cut_samples. Qed.

(** "What a field loads does not depend on the machine" is false: it does without a mark. *)
Theorem C77_machine_independent_refuted :
  field_from_stream [] 1 (text_field (SInt 2) (KString (Utf16Bom Little) None)) VNone [] (mkStream [65; 0] 0)
    = (mkStream [65; 0] 2, Ok (VStr [65]))
  /\ field_from_stream [] 1 (text_field (SInt 2) (KString (Utf16Bom Big) None)) VNone [] (mkStream [65; 0] 0)
    = (mkStream [65; 0] 2, Ok (VStr [16640])).
Proof. exact native_differs. Qed.
Print Assumptions C77_machine_independent_refuted.

Example C77_example :
  field_to_stream [] 1 (text_field SNone (KStringZ (Utf16Bom Little) None)) (VStr [65]) VNone []
    = ([255; 254; 65; 0; 0; 0], Ok tt)
  /\ field_from_stream [] 1 (text_field SNone (KStringZ (Utf16Bom Big) None)) VNone []
      (at_data [7] [255; 254; 65; 0; 0; 0] [9])
     = (after_data [7] [255; 254; 65; 0; 0; 0] [9], Ok (VStr [65]))
  /\ field_from_stream [] 1 (text_field SNone (KStringZ Utf8Sig None)) VNone []
      (at_data [] [239; 187; 191; 65; 0] [9]) = (after_data [] [239; 187; 191; 65; 0] [9], Ok (VStr [65]))
  /\ field_from_stream [] 1 (text_field SNone (KStringZ Utf8Sig None)) VNone []
      (at_data [] [65; 0] [9]) = (after_data [] [65; 0] [9], Ok (VStr [65])).
Proof. exact bom_samples. Qed.

(** C78: in a code page each byte is a character; bytes without one, and characters without a
    byte, are errors. *)
Theorem C78_page_read : forall E n c t pad bs ctx d pre suf,
  declared_size c d (zlen bs) -> always_present c -> c_null c = VUndefined -> c_const c = VUndefined ->
  (forall cps, Forall2 (assigned t) bs cps -> accepts c (VStr cps) ->
     field_from_stream E n (Field c (KString (Charmap t) pad)) ctx d (at_data pre bs suf)
     = (after_data pre bs suf, Ok (VStr cps)))
  /\ ((~ exists cps, Forall2 (assigned t) bs cps) ->
     field_from_stream E n (Field c (KString (Charmap t) pad)) ctx d (at_data pre bs suf)
     = (after_data pre bs suf, Raise EUnicodeDecode)).
Proof. exact page_string_load. Qed.
Print Assumptions C78_page_read.

Theorem C78_page_written : forall E n c t pad cps ctx d,
  declared_size c d (zlen cps) -> accepts c (VStr cps) ->
  (Forall (fun cp => exists b, assigned t b cp) cps -> exists bs,
     field_to_stream E n (Field c (KString (Charmap t) pad)) (VStr cps) ctx d = (bs, Ok tt)
     /\ Forall2 (assigned t) bs cps)
  /\ (~ Forall (fun cp => exists b, assigned t b cp) cps ->
     field_to_stream E n (Field c (KString (Charmap t) pad)) (VStr cps) ctx d = ([], Raise EUnicodeEncode)).
Proof. exact page_string_dump. Qed.
Print Assumptions C78_page_written.

Theorem C78_redump : forall E n c t pad bs cps ctx d, one_form (Charmap t) -> bytes_ok bs ->
  declared_size c d (zlen bs) -> accepts c (VStr cps) -> Forall2 (assigned t) bs cps ->
  field_to_stream E n (Field c (KString (Charmap t) pad)) (VStr cps) ctx d = (bs, Ok tt).
Proof. exact page_string_redump. Qed.
Print Assumptions C78_redump.

(** "Dumping what was loaded gives the same bytes" is false where a character has two bytes. *)
Theorem C78_redump_refuted :
  field_from_stream [] 1 (text_field (SInt 1) (KString (Charmap cp875) None)) VNone [] (mkStream [63] 0)
    = (mkStream [63] 1, Ok (VStr [26]))
  /\ field_to_stream [] 1 (text_field (SInt 1) (KString (Charmap cp875) None)) (VStr [26]) VNone []
    = ([253], Ok tt).
Proof. exact page_rewritten. Qed.
Print Assumptions C78_redump_refuted.

Example C78_example : one_form (Charmap ibm500)
  /\ field_to_stream [] 1 (text_field (SInt 5) (KString (Charmap ibm500) None)) (VStr [72; 101; 108; 108; 111]) VNone []
    = ([200; 133; 147; 147; 150], Ok tt)
  /\ field_from_stream [] 1 (text_field (SInt 5) (KString (Charmap ibm500) None)) VNone []
       (mkStream [200; 133; 147; 147; 150] 0)
     = (mkStream [200; 133; 147; 147; 150] 5, Ok (VStr [72; 101; 108; 108; 111]))
  /\ field_from_stream [] 1 (text_field (SInt 1) (KString (Charmap cp1252) None)) VNone [] (mkStream [129] 0)
     = (mkStream [129] 1, Raise EUnicodeDecode)
  /\ field_to_stream [] 1 (text_field (SInt 1) (KString (Charmap cp1252) None)) (VStr [256]) VNone []
     = ([], Raise EUnicodeEncode).
Proof. exact (conj ibm500_one_form page_samples). Qed.
