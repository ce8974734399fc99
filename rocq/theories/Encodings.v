(** Model of String and StringZ with any text encoding: an encoding is whatever functions
    [str.encode], [bytes.decode] and the codec's incremental decoder are, so that also encodings
    whose decoder gives out several characters at a time or keeps a state are covered
    ("shift_jis", "gb18030", "utf-7", "idna", ...).  The fields are user-defined fields in the
    sense of Custom.v, so they can be put into arrays, unions and structs. *)
From Verif Require Export Custom.

Record coding := Coding {
  co_encode : list Z -> res (list Z);                  (* text.encode(encoding) *)
  co_decode : list Z -> res (list Z);                  (* data.decode(encoding) *)
  co_state : Type;                                     (* the state of the incremental decoder *)
  co_start : co_state;
  co_step : co_state -> Z -> res (list Z * co_state);  (* decoder.decode(bytes([b])) *)
  co_stop : co_state -> res (list Z)                   (* decoder.decode(b"", True) *)
}.

(** stringlike.py:148-149, 188-189 [_size_for_value]; [z] tells StringZ from String. *)
Definition x_size_for (co : coding) (z : bool) (v : value) : res (option Z) :=
  match v with
  | VStr s => do bs <- co_encode co (if z then s ++ [0] else s); Ok (Some (zlen bs))
  | _ => Raise (if z then ETypeErr else EAttrErr)
  end.

(** base.py:621-656: the length of the null value of a field without a size.  String asks for
    its size again when it dumps the null value. *)
Definition x_null_len (c : fconf) (co : coding) (z : bool) : res Z :=
  match c_null c with
  | VUndefined => Raise (EUnserializable (c_name c))
  | VBytes bs => Ok (zlen bs)
  | VDefault | VNone => Raise (EBuggyField (c_name c))
  | VStr s => do bs <- co_encode co (if z then s ++ [0] else s);
              if z then Ok (zlen bs) else Raise (EBuggyField (c_name c))
  | _ => Raise (if z then ETypeErr else EAttrErr)
  end.

(** base.py:578-656 [get_expected_size] *)
Definition x_get_expected_size (c : fconf) (co : coding) (z : bool) (d : dict) : res Z :=
  match c_size c with
  | SInt n => Ok n
  | SNone =>
    do v <- match oget d (c_name c) with
            | Some v => Ok v
            | None => do dv <- default_of c;
                      if is_undefined dv then Raise (EUndefinedSize (c_name c)) else Ok dv
            end;
    if is_none v then x_null_len c co z
    else do sz <- x_size_for co z v;
         match sz with Some n => Ok n | None => Raise (EUndefinedSize (c_name c)) end
  | SRef name =>
    match dget d name with
    | Some (VInt n) => Ok n
    | Some _ => Raise ETypeErr
    | None => Raise (EMissingRequired (Some name))
    end
  end.

(** stringlike.py:116-141 [String._encode_and_resize] *)
Definition x_encode_and_resize (c : fconf) (co : coding) (pad : option Z) (g : res Z) (s : list Z) : res (list Z) :=
  do to_dump <- co_encode co s;
  do write_size <- g;
  let size_diff := zlen to_dump - write_size in
  if 0 <? size_diff then Raise (EValueSize (c_name c))
  else if size_diff <? 0 then
    match pad with
    | None => Raise (EValueSize (c_name c))
    | Some b => Ok (to_dump ++ repeat b (Z.to_nat (- size_diff)))
    end
  else Ok to_dump.

(** stringlike.py:143-146 [_add_padding] *)
Definition x_pad (c : fconf) (pad : option Z) (serialized : list Z) (to_size : Z) : res (list Z) :=
  match pad with
  | Some b => Ok (serialized ++ repeat b (Z.to_nat (to_size - zlen serialized)))
  | None => Raise (EValueSize (c_name c))
  end.

(** [char == "\0"] *)
Definition is_nul (chunk : list Z) : bool := bytes_eqb chunk [0].

(** stringlike.py:168-180: the loop of [StringZ._do_load] over [codecs.iterdecode], which
    passes on what the decoder gives out for each byte and in the end, unless it is empty.
    [acc] is the text so far. *)
Fixpoint x_loop (fuel : nat) (name : fname) (co : coding) (max_bytes : option Z) (n_read : Z)
    (st : co_state co) (acc : list Z) : loader value := fun s =>
  match fuel with
  | O => (s, OOF)
  | S fuel' =>
    match iter_next max_bytes n_read s with
    | None =>
      (s, do out <- co_stop co st;
          if is_nul out then Ok (VStr acc) else Raise (EDeserialization name))
    | Some (b, s') =>
      match co_step co st b with
      | Ok (out, st') =>
        if is_nul out then (s', Ok (VStr acc))
        else x_loop fuel' name co max_bytes (n_read + 1) st' (acc ++ out) s'
      | Raise e => (s', Raise e)
      | OOF => (s', OOF)
      end
    end
  end.

(** stringlike.py:101-114 [String._do_load], [_do_dump] *)
Definition x_string (c : fconf) (co : coding) (pad : option Z) : ufield :=
  UField c (x_size_for co false) (x_pad c pad)
    (fun v ctx d => match v with
                    | VStr s => ddo bs <- dlift (x_encode_and_resize c co pad (x_get_expected_size c co false d) s); dwrite bs
                    | _ => draise EAttrErr
                    end)
    (fun ctx d => ldo data <- read_exact_size c (x_get_expected_size c co false d);
                  ldo s <- llift (co_decode co data);
                  lret (VStr s)).

(** stringlike.py:158-186 [StringZ._do_load], [_do_dump] *)
Definition x_stringz (c : fconf) (co : coding) (pad : option Z) : ufield :=
  UField c (x_size_for co true) (x_pad c pad)
    (fun v ctx d => match v with
                    | VStr s => ddo bs <- dlift (co_encode co (s ++ [0])); dwrite bs
                    | _ => draise ETypeErr
                    end)
    (fun ctx d s =>
       match (match x_get_expected_size c co true d with
              | Ok n => Ok (Some n)
              | Raise e => if is_UndefinedSizeError e then Ok None else Raise e
              | OOF => OOF
              end) with
       | Ok max_bytes => x_loop (S (length (rest s))) (c_name c) co max_bytes 0 (co_start co) [] s
       | Raise e => (s, Raise e)
       | OOF => (s, OOF)
       end).

(** ** Encodings *)

(** The encodings of Codecs.v. *)
Definition coding_of (cd : codec) : coding :=
  Coding (encode cd) (decode cd) (codec * list Z) (cd, [])
    (fun st b => match dec_step (fst st) (snd st ++ [b]) with
                 | DChar cp => Ok ([cp], (started (fst st), []))
                 | DMore => Ok ([], (fst st, snd st ++ [b]))
                 | DBad => Raise EUnicodeDecode
                 | DBom cd' => Ok ([], (cd', []))
                 | DNoBom => Raise EUnicodeErr
                 end)
    (fun st => if forgiven (fst st) (snd st) then Ok [] else Raise EUnicodeDecode).

(** What the bytes seen so far are in an encoding that gives each character its own bytes. *)
Inductive word := WChar (cp : Z) | WMore | WBad.

Fixpoint spell (enc : Z -> option (list Z)) (s : list Z) : res (list Z) :=
  match s with
  | [] => Ok []
  | cp :: s' => match enc cp with
                | None => Raise EUnicodeEncode
                | Some bs => do r <- spell enc s'; Ok (bs ++ r)
                end
  end.

Fixpoint unspell (dec : list Z -> word) (buf bs : list Z) : res (list Z) :=
  match bs with
  | [] => match buf with [] => Ok [] | _ => Raise EUnicodeDecode end
  | b :: bs' => match dec (buf ++ [b]) with
                | WChar cp => do s <- unspell dec [] bs'; Ok (cp :: s)
                | WMore => unspell dec (buf ++ [b]) bs'
                | WBad => Raise EUnicodeDecode
                end
  end.

(** Encodings without a state, as the East Asian ones ("shift_jis", "gbk", "gb18030", "big5",
    "euc_kr", ...): [enc] gives the bytes of a character. *)
Definition word_coding (enc : Z -> option (list Z)) (dec : list Z -> word) : coding :=
  Coding (spell enc) (unspell dec []) (list Z) []
    (fun buf b => match dec (buf ++ [b]) with
                  | WChar cp => Ok ([cp], [])
                  | WMore => Ok ([], buf ++ [b])
                  | WBad => Raise EUnicodeDecode
                  end)
    (fun buf => match buf with [] => Ok [] | _ => Raise EUnicodeDecode end).

(** Such an encoding given by the list of its characters and their bytes. *)
Definition table_enc (t : list (Z * list Z)) (cp : Z) : option (list Z) :=
  match find (fun e => fst e =? cp) t with Some e => Some (snd e) | None => None end.
Definition begins (bs w : list Z) : bool := bytes_eqb (firstn (length bs) w) bs.
Definition table_dec (t : list (Z * list Z)) (bs : list Z) : word :=
  match find (fun e => bytes_eqb (snd e) bs) t with
  | Some e => WChar (fst e)
  | None => if existsb (fun e => begins bs (snd e)) t then WMore else WBad
  end.
Definition table_coding (t : list (Z * list Z)) : coding := word_coding (table_enc t) (table_dec t).

(** ** "utf-7" (RFC 2152, as CPython's codec writes and reads it) *)

(** The characters of base 64, and their values. *)
Definition b64_char (v : Z) : Z :=
  if v <? 26 then 65 + v else if v <? 52 then 97 + (v - 26) else if v <? 62 then 48 + (v - 52)
  else if v =? 62 then 43 else 47.
Definition b64_value (b : Z) : option Z :=
  if (65 <=? b) && (b <=? 90) then Some (b - 65)
  else if (97 <=? b) && (b <=? 122) then Some (b - 97 + 26)
  else if (48 <=? b) && (b <=? 57) then Some (b - 48 + 52)
  else if b =? 43 then Some 62 else if b =? 47 then Some 63 else None.

(** Characters that are written as they are: printable ASCII but '+', '\' and '~', and tab,
    line feed and carriage return. *)
Definition u7_direct (cp : Z) : bool :=
  (cp =? 9) || (cp =? 10) || (cp =? 13)
  || (32 <=? cp) && (cp <=? 125) && negb (cp =? 43) && negb (cp =? 92).

(** The 16-bit units of a character. *)
Definition u7_units (cp : Z) : list Z :=
  if cp <? 65536 then [cp] else [55296 + (cp - 65536) / 1024; 56320 + (cp - 65536) mod 1024].

(** Sixteen more bits in base 64: [bits] bits with the value [p] are left over from before. *)
Definition u7_push (bits p u : Z) : list Z * (Z * Z) :=
  let v := p * 65536 + u in
  let n := bits + 16 in
  (map (fun i => b64_char (v / 2 ^ (n - 6 * (Z.of_nat i + 1)) mod 64)) (seq 0 (Z.to_nat (n / 6))),
   (n mod 6, v mod 2 ^ (n mod 6))).
Definition u7_flush (bits p : Z) : list Z :=
  if bits =? 0 then [] else [b64_char (p * 2 ^ (6 - bits))].

Fixpoint u7_push_all (bits p : Z) (us : list Z) : list Z * (Z * Z) :=
  match us with
  | [] => ([], (bits, p))
  | u :: us' => let '(out, (b1, p1)) := u7_push bits p u in
                let '(out', st) := u7_push_all b1 p1 us' in (out ++ out', st)
  end.

(** The encoder; [shift] is the left-over bits within a base 64 section. *)
Fixpoint u7_encode (shift : option (Z * Z)) (s : list Z) : list Z :=
  match s with
  | [] => match shift with None => [] | Some (bits, p) => u7_flush bits p ++ [45] end
  | cp :: s' =>
    match shift with
    | None =>
      if cp =? 43 then 43 :: 45 :: u7_encode None s'
      else if u7_direct cp then cp :: u7_encode None s'
      else let '(out, st) := u7_push_all 0 0 (u7_units cp) in 43 :: out ++ u7_encode (Some st) s'
    | Some (bits, p) =>
      if u7_direct cp then
        u7_flush bits p ++ (if match b64_value cp with Some _ => true | None => cp =? 45 end then [45] else [])
        ++ cp :: u7_encode None s'
      else let '(out, st) := u7_push_all bits p (u7_units cp) in out ++ u7_encode (Some st) s'
    end
  end.

(** The incremental decoder, outside of or within a base 64 section: right after the '+', or
    [bits] bits with the value [buf], the first half of a surrogate pair, and the characters
    so far, which are given out when the section ends. *)
Inductive u7_state := U7Direct | U7Plus | U7Shift (bits buf : Z) (sur : option Z) (out : list Z).

Definition u7_decodes (b : Z) : bool := (0 <=? b) && (b <=? 127) && negb (b =? 43).

Definition u7_unit (so : option Z * list Z) (u : Z) : option Z * list Z :=
  let '(sur, out) := so in
  let low := (56320 <=? u) && (u <=? 57343) in
  match sur with
  | Some h => if low then (None, out ++ [65536 + (h - 55296) * 1024 + (u - 56320)])
              else if (55296 <=? u) && (u <=? 56319) then (Some u, out ++ [h])
              else (None, out ++ [h; u])
  | None => if (55296 <=? u) && (u <=? 56319) then (Some u, out) else (None, out ++ [u])
  end.

Definition u7_digit (bits buf : Z) (sur : option Z) (out : list Z) (v : Z) : u7_state :=
  let buf := buf * 64 + v in
  let bits := bits + 6 in
  if 16 <=? bits then
    let '(sur', out') := u7_unit (sur, out) (buf / 2 ^ (bits - 16)) in
    U7Shift (bits - 16) (buf mod 2 ^ (bits - 16)) sur' out'
  else U7Shift bits buf sur out.

Definition u7_step (st : u7_state) (b : Z) : res (list Z * u7_state) :=
  match st with
  | U7Direct =>
    if b =? 43 then Ok ([], U7Plus)
    else if u7_decodes b then Ok ([b], U7Direct) else Raise EUnicodeDecode
  | U7Plus =>
    if b =? 45 then Ok ([43], U7Direct)
    else match b64_value b with
         | Some v => Ok ([], u7_digit 0 0 None [] v)
         | None => Raise EUnicodeDecode
         end
  | U7Shift bits buf sur out =>
    match b64_value b with
    | Some v => Ok ([], u7_digit bits buf sur out v)
    | None =>
      if (6 <=? bits) || negb (buf =? 0) then Raise EUnicodeDecode
      else
        let out := match sur with Some h => if u7_decodes b then out ++ [h] else out | None => out end in
        if b =? 45 then Ok (out, U7Direct)
        else if u7_decodes b then Ok (out ++ [b], U7Direct)
        else Raise EUnicodeDecode
    end
  end.

Definition u7_stop (st : u7_state) : res (list Z) :=
  match st with
  | U7Direct | U7Plus => Ok []
  | U7Shift bits buf sur out =>
    match sur with
    | Some _ => Raise EUnicodeDecode
    | None => if (6 <=? bits) || negb (buf =? 0) then Raise EUnicodeDecode else Ok out
    end
  end.

Fixpoint u7_decode (st : u7_state) (bs : list Z) : res (list Z) :=
  match bs with
  | [] => u7_stop st
  | b :: bs' => do r <- u7_step st b; do s <- u7_decode (snd r) bs'; Ok (fst r ++ s)
  end.

Definition utf7 : coding := Coding (fun s => Ok (u7_encode None s)) (u7_decode U7Direct) u7_state U7Direct u7_step u7_stop.
