(** Text codecs used by String/StringZ (stringlike.py:107, 128, 149, 169, 186, 189).

    Models the strict-mode behaviour of the CPython codecs "ascii", "iso-8859-1", "utf-8",
    "utf-16-le", "utf-16-be", "utf-32-le", "utf-32-be" (documented behaviour / Unicode
    standard table 3-7), of the code pages ("ibm500", "cp1252", ...), of the codecs with a byte
    order mark ("utf-8-sig", "utf-16", "utf-32"), and of their incremental decoders as driven
    one byte at a time by [codecs.iterdecode].  Multi-byte legacy encodings are not modelled.
    Text is a list of code points. *)
From Verif Require Export PyInt.

(** A code page is given by the characters of the bytes 1 to 255; byte 0 is NUL in all of
    CPython's.  "utf-16" and "utf-32" write the machine's own byte order. *)
Inductive codec := Ascii | Latin1 | Utf8 | Utf16 (e : endian) | Utf32 (e : endian)
| Charmap (t : list (option Z))
| Utf8Sig | Utf16Bom (native : endian) | Utf32Bom (native : endian).

Definition is_surrogate (cp : Z) : bool := (55296 <=? cp) && (cp <=? 57343).
(** Unicode scalar values: what the UTF codecs can encode in strict mode. *)
Definition is_scalar (cp : Z) : bool :=
  (0 <=? cp) && (cp <=? 1114111) && negb (is_surrogate cp).

Definition utf8_char (cp : Z) : option (list Z) :=
  if negb (is_scalar cp) then None
  else if cp <? 128 then Some [cp]
  else if cp <? 2048 then Some [192 + cp / 64; 128 + cp mod 64]
  else if cp <? 65536 then
    Some [224 + cp / 4096; 128 + cp / 64 mod 64; 128 + cp mod 64]
  else Some [240 + cp / 262144; 128 + cp / 4096 mod 64; 128 + cp / 64 mod 64;
             128 + cp mod 64].

Definition utf16_char (e : endian) (cp : Z) : option (list Z) :=
  if negb (is_scalar cp) then None
  else if cp <? 65536 then Some (order e (le_bytes 2 cp))
  else let v := cp - 65536 in
       Some (order e (le_bytes 2 (55296 + v / 1024))
             ++ order e (le_bytes 2 (56320 + v mod 1024))).

Definition utf32_char (e : endian) (cp : Z) : option (list Z) :=
  if negb (is_scalar cp) then None else Some (order e (le_bytes 4 cp)).

(** The character of a byte in a code page. *)
Definition page_char (t : list (option Z)) (b : Z) : option Z :=
  if b =? 0 then Some 0
  else if (1 <=? b) && (b <=? 255) then nth (Z.to_nat (b - 1)) t None else None.
(** The byte of a character: the last one, as in [codecs.charmap_build]. *)
Definition page_byte (t : list (option Z)) (cp : Z) : option Z :=
  if cp =? 0 then Some 0 else find (fun b => match page_char t b with Some x => x =? cp | None => false end)
    (map Z.of_nat (rev (seq 0 256))).

(** One code point to bytes; [None] is UnicodeEncodeError. *)
Definition encode_char (c : codec) (cp : Z) : option (list Z) :=
  match c with
  | Ascii => if (0 <=? cp) && (cp <? 128) then Some [cp] else None
  | Latin1 => if (0 <=? cp) && (cp <? 256) then Some [cp] else None
  | Utf8 | Utf8Sig => utf8_char cp
  | Utf16 e | Utf16Bom e => utf16_char e cp
  | Utf32 e | Utf32Bom e => utf32_char e cp
  | Charmap t => match page_byte t cp with Some b => Some [b] | None => None end
  end.

(** The byte order mark: U+FEFF. *)
Definition bom (c : codec) : list Z :=
  match c with
  | Utf8Sig => [239; 187; 191]
  | Utf16Bom e => order e [255; 254]
  | Utf32Bom e => order e [255; 254; 0; 0]
  | _ => []
  end.

Fixpoint encode_chars (c : codec) (s : list Z) : res (list Z) :=
  match s with
  | [] => Ok []
  | cp :: s' =>
    match encode_char c cp with
    | None => Raise EUnicodeEncode
    | Some bs => do rest <- encode_chars c s'; Ok (bs ++ rest)
    end
  end.

(** [s.encode(encoding)] *)
Definition encode (c : codec) (s : list Z) : res (list Z) :=
  do bs <- encode_chars c s; Ok (bom c ++ bs).

(** What an incremental decoder does with the bytes buffered so far: a character, more bytes
    needed, UnicodeDecodeError, a byte order mark after which another codec continues, or
    the UnicodeError for a missing byte order mark. *)
Inductive dec := DChar (cp : Z) | DMore | DBad | DBom (c : codec) | DNoBom.

Definition is_cont (b : Z) : bool := (128 <=? b) && (b <=? 191).

(** UTF-8: allowed second bytes per first byte (Unicode table 3-7). *)
Definition utf8_second_ok (b0 b1 : Z) : bool :=
  if b0 =? 224 then (160 <=? b1) && (b1 <=? 191)
  else if b0 =? 237 then (128 <=? b1) && (b1 <=? 159)
  else if b0 =? 240 then (144 <=? b1) && (b1 <=? 191)
  else if b0 =? 244 then (128 <=? b1) && (b1 <=? 143)
  else is_cont b1.

Definition dec_utf8 (buf : list Z) : dec :=
  match buf with
  | [] => DMore
  | b0 :: r =>
    if b0 <? 128 then match r with [] => DChar b0 | _ => DBad end
    else if (194 <=? b0) && (b0 <=? 223) then
      match r with
      | [] => DMore
      | [b1] => if is_cont b1 then DChar ((b0 - 192) * 64 + (b1 - 128)) else DBad
      | _ => DBad
      end
    else if (224 <=? b0) && (b0 <=? 239) then
      match r with
      | [] => DMore
      | [b1] => if utf8_second_ok b0 b1 || (b0 =? 237) && is_cont b1 then DMore else DBad
      | [b1; b2] =>
        if utf8_second_ok b0 b1 && is_cont b2
        then DChar ((b0 - 224) * 4096 + (b1 - 128) * 64 + (b2 - 128)) else DBad
      | _ => DBad
      end
    else if (240 <=? b0) && (b0 <=? 244) then
      match r with
      | [] => DMore
      | [b1] => if utf8_second_ok b0 b1 then DMore else DBad
      | [b1; b2] => if utf8_second_ok b0 b1 && is_cont b2 then DMore else DBad
      | [b1; b2; b3] =>
        if utf8_second_ok b0 b1 && is_cont b2 && is_cont b3
        then DChar ((b0 - 240) * 262144 + (b1 - 128) * 4096 + (b2 - 128) * 64 + (b3 - 128))
        else DBad
      | _ => DBad
      end
    else DBad
  end.

Definition dec_utf16 (e : endian) (buf : list Z) : dec :=
  match buf with
  | [] | [_] => DMore
  | [b0; b1] =>
    let u := le_value (order e [b0; b1]) in
    if (55296 <=? u) && (u <=? 56319) then DMore
    else if (56320 <=? u) && (u <=? 57343) then DBad
    else DChar u
  | [_; _; _] => DMore
  | [b0; b1; b2; b3] =>
    let u := le_value (order e [b0; b1]) in
    let u' := le_value (order e [b2; b3]) in
    if ((55296 <=? u) && (u <=? 56319)) && ((56320 <=? u') && (u' <=? 57343))
    then DChar (65536 + (u - 55296) * 1024 + (u' - 56320)) else DBad
  | _ => DBad
  end.

Definition dec_utf32 (e : endian) (buf : list Z) : dec :=
  match buf with
  | [b0; b1; b2; b3] =>
    let u := le_value (order e [b0; b1; b2; b3]) in
    if is_scalar u then DChar u else DBad
  | [] | [_] | [_; _] | [_; _; _] => DMore
  | _ => DBad
  end.

(** encodings/utf_16.py, utf_32.py [IncrementalDecoder._buffer_decode]: a character before any
    byte order mark is an error. *)
Definition need_bom (r : dec) : dec := match r with DChar _ => DNoBom | _ => r end.

Definition dec_step (c : codec) (buf : list Z) : dec :=
  match c with
  | Ascii => match buf with [] => DMore | [b] => if b <? 128 then DChar b else DBad | _ => DBad end
  | Latin1 => match buf with [] => DMore | [b] => DChar b | _ => DBad end
  | Utf8 => dec_utf8 buf
  | Utf16 e => dec_utf16 e buf
  | Utf32 e => dec_utf32 e buf
  | Charmap t =>
    match buf with
    | [] => DMore
    | [b] => match page_char t b with Some cp => DChar cp | None => DBad end
    | _ => DBad
    end
  | Utf8Sig => if bytes_eqb buf [239; 187; 191] then DBom Utf8 else dec_utf8 buf
  | Utf16Bom e =>
    if bytes_eqb buf [255; 254] then DBom (Utf16 Little)
    else if bytes_eqb buf [254; 255] then DBom (Utf16 Big)
    else need_bom (dec_utf16 e buf)
  | Utf32Bom e =>
    if bytes_eqb buf [255; 254; 0; 0] then DBom (Utf32 Little)
    else if bytes_eqb buf [0; 0; 254; 255] then DBom (Utf32 Big)
    else need_bom (dec_utf32 e buf)
  end.

(** The codec once a character has been decoded: encodings/utf_8_sig.py no longer looks for
    a mark. *)
Definition started (c : codec) : codec := match c with Utf8Sig => Utf8 | _ => c end.

(** Bytes pending at the end of the data that the incremental decoder does not complain
    about: encodings/utf_8_sig.py, the beginning of a byte order mark. *)
Definition forgiven (c : codec) (buf : list Z) : bool :=
  match buf with
  | [] => true
  | _ => match c with
         | Utf8Sig => bytes_eqb buf [239] || bytes_eqb buf [239; 187]
         | _ => false
         end
  end.

(** [data.decode(encoding)], without byte order mark, with [buf] bytes already buffered: one
    character at a time; bytes left over at the end are an error (truncated data). *)
Fixpoint decode_from (c : codec) (buf : list Z) (bs : list Z) : res (list Z) :=
  match bs with
  | [] => match buf with [] => Ok [] | _ => Raise EUnicodeDecode end
  | b :: bs' =>
    match dec_step c (buf ++ [b]) with
    | DChar cp => do s <- decode_from c [] bs'; Ok (cp :: s)
    | DMore => decode_from c (buf ++ [b]) bs'
    | _ => Raise EUnicodeDecode
    end
  end.

(** Taking off the byte order mark: the codec for the rest, and the rest.  Without a mark it
    is UTF-8 or the machine's byte order. *)
Definition starts_with (mark bs : list Z) : bool := bytes_eqb (firstn (length mark) bs) mark.
Definition strip_bom (c : codec) (bs : list Z) : codec * list Z :=
  match c with
  | Utf8Sig => (Utf8, if starts_with [239; 187; 191] bs then skipn 3 bs else bs)
  | Utf16Bom e =>
    if starts_with [255; 254] bs then (Utf16 Little, skipn 2 bs)
    else if starts_with [254; 255] bs then (Utf16 Big, skipn 2 bs)
    else (Utf16 e, bs)
  | Utf32Bom e =>
    if starts_with [255; 254; 0; 0] bs then (Utf32 Little, skipn 4 bs)
    else if starts_with [0; 0; 254; 255] bs then (Utf32 Big, skipn 4 bs)
    else (Utf32 e, bs)
  | _ => (c, bs)
  end.

(** [data.decode(encoding)] *)
Definition decode (c : codec) (bs : list Z) : res (list Z) :=
  let '(c', r) := strip_bom c bs in decode_from c' [] r.
