(** Model of fields/base.py, fields/numeric.py and fields/stringlike.py: everything a field
    does that does not recurse into other fields.  Containers and structs: StructModel.v. *)
From Verif Require Export Values.

(** [len(value)]; [None]: TypeError.  (Struct has a [__len__] too; taking the length of a
    Struct inside a field is not modelled.) *)
Definition py_len (v : value) : option Z :=
  match v with
  | VBytes bs => Some (zlen bs)
  | VStr s => Some (zlen s)
  | VList l => Some (zlen l)
  | VDict d => Some (zlen d)
  | _ => None
  end.

(** [self.name in d] / [d[self.name]] for a field name that may be None. *)
Definition oget (d : dict) (name : fname) : option value :=
  match name with Some n => dget d n | None => None end.

(** base.py:525-535 [Field.default] *)
Definition default_of (c : fconf) : res value :=
  match c_factory c with
  | Some (inl v) => Ok v
  | Some (inr e) => Raise e
  | None => Ok (c_default c)
  end.

(** base.py:517-523 [allow_null] *)
Definition allow_null (c : fconf) : bool := negb (is_undefined (c_null c)).

(** The loop [for validator in self.validators: validator(x)]. *)
Fixpoint run_validators (vs : list (value -> res unit)) (v : value) : res unit :=
  match vs with
  | [] => Ok tt
  | f :: vs' => do _ <- f v; run_validators vs' v
  end.

(** The encoders of varints.py:57-238 applied to any value.  A float survives the comparisons
    with 0; [value.bit_length()] (AttributeError) or [value & 0x7F] (TypeError) stop it, but
    for ULEB128 the loop [while value > 0] is not entered with a NaN.  Other objects fail in
    [value < 0] (TypeError), which LEB128 does not evaluate.  (A Struct is compared by
    [Struct.__eq__] first; what that may raise is not modelled here.) *)
Definition vli_encode_value (fmt : vli_format) (v : value) : res (list Z) :=
  match v with
  | VInt z => vli_encode fmt z
  | VFloat x =>
    let negative := sign_of binary64 x && match classify binary64 x with FNan => false | _ => true end in
    if magnitude binary64 x =? 0 then Ok [0]
    else match fmt with
         | COMPACT_INDICES | LEB128 => Raise EAttrErr
         | VLQ => Raise (if negative then EValueErr else EAttrErr)
         | ULEB128 =>
           if negative then Raise EValueErr
           else match classify binary64 x with FNan => Ok [] | _ => Raise ETypeErr end
         end
  | _ => match fmt with LEB128 => Raise EAttrErr | _ => Raise ETypeErr end
  end.

(** [_size_for_value]: base.py:545-566, numeric.py:273-274, stringlike.py:48-49, 148-149,
    188-189. *)
Definition size_for_value (c : fconf) (k : fkind) (v : value) : res (option Z) :=
  match k with
  | KBytes => match py_len v with Some n => Ok (Some n) | None => Raise ETypeErr end
  | KString cd _ =>
    match v with
    | VStr s => do bs <- encode cd s; Ok (Some (zlen bs))
    | _ => Raise EAttrErr
    end
  | KStringZ cd _ =>
    match v with
    | VStr s => do bs <- encode cd (s ++ [0]); Ok (Some (zlen bs))
    | _ => Raise ETypeErr
    end
  | KVli fmt _ => do bs <- vli_encode_value fmt v; Ok (Some (zlen bs))
  | _ => match c_size c with SInt n => Ok (Some n) | _ => Ok None end
  end.

(** [len(self._get_null_repr(field_values))] as evaluated by base.py:638-640 for a field
    without a size: base.py:910-963 with [size is None].  [dd] is the field's [_do_dump] on
    a null value.  The branches that call [get_expected_size] again recurse for ever; the
    RecursionError is turned into BuggyFieldImplementationError (base.py:645-653). *)
Definition unsized_null_len (dd : value -> dumped unit) (c : fconf) (k : fkind) : res Z :=
  match c_null c with
  | VUndefined => Raise (EUnserializable (c_name c))
  | VBytes bs => Ok (zlen bs)
  | VDefault | VNone => Raise (EBuggyField (c_name c))
  | v =>
    match k with
    | KBytes => Raise (EBuggyField (c_name c))        (* stringlike.py:42 *)
    | KTime _ _ _ _ =>                                (* numeric.py:460-465 *)
      match v with VTime _ _ => Raise (EBuggyField (c_name c)) | _ => Raise EAttrErr end
    | KString cd _ =>                                 (* stringlike.py:128-129 *)
      match v with
      | VStr s => do _ <- encode cd s; Raise (EBuggyField (c_name c))
      | _ => Raise EAttrErr
      end
    | _ => match dd v with
           | (out, Ok _) => Ok (zlen out)
           | (_, Raise e) => Raise e
           | (_, OOF) => OOF
           end
    end
  end.

(** base.py:621-656 [__get_expected_possibly_undefined_size] *)
Definition expected_unsized (dd : value -> dumped unit) (c : fconf) (k : fkind) (d : dict)
  : res Z :=
  do v <- match oget d (c_name c) with
          | Some v => Ok v
          | None => do dv <- default_of c;
                    if is_undefined dv then Raise (EUndefinedSize (c_name c)) else Ok dv
          end;
  if is_none v then unsized_null_len dd c k
  else do sz <- size_for_value c k v;
       match sz with Some n => Ok n | None => Raise (EUndefinedSize (c_name c)) end.

(** base.py:578-619 [get_expected_size] *)
Definition get_expected_size_with (dd : value -> dumped unit) (c : fconf) (k : fkind)
    (d : dict) : res Z :=
  match c_size c with
  | SInt n => Ok n
  | SNone => expected_unsized dd c k d
  | SRef name =>
    match dget d name with
    | Some (VInt n) => Ok n
    | Some _ => Raise ETypeErr
    | None => Raise (EMissingRequired (Some name))
    end
  end.

(** base.py:910-963 [_get_null_repr]; [g] is [get_expected_size(all_fields)]. *)
Definition null_repr_with (dd : value -> dumped unit) (g : res Z) (c : fconf)
  : res (list Z) :=
  match c_null c with
  | VUndefined => Raise (EUnserializable (c_name c))
  | VBytes bs => Ok bs
  | VDefault | VNone =>
    match g with
    | Ok n => Ok (repeat 0 (Z.to_nat n))
    | Raise e =>
      if is_UndefinedSizeError e then Raise (EUnserializable (c_name c)) else Raise e
    | OOF => OOF
    end
  | v => match dd v with
         | (out, Ok _) => Ok out
         | (_, Raise e) => Raise e
         | (_, OOF) => OOF
         end
  end.

(** [try: ... except (ValueError, OverflowError): raise UnserializableValueError] *)
Definition catch_value_error {A} (name : fname) (m : dumped A) : dumped A :=
  match m with
  | (out, Raise e) =>
    if is_ValueError_or_OverflowError e then (out, Raise (EUnserializable name)) else m
  | _ => m
  end.

(** stringlike.py:116-141 [String._encode_and_resize]; [g] is
    [get_expected_size(all_fields)]. *)
Definition encode_and_resize (c : fconf) (cd : codec) (pad : option Z) (g : res Z)
    (s : list Z) : res (list Z) :=
  do to_dump <- encode cd s;
  do write_size <- g;
  let size_diff := zlen to_dump - write_size in
  if 0 <? size_diff then Raise (EValueSize (c_name c))
  else if size_diff <? 0 then
    match pad with
    | None => Raise (EValueSize (c_name c))
    | Some b => Ok (to_dump ++ repeat b (Z.to_nat (- size_diff)))
    end
  else Ok to_dump.

(** [str(z).encode('ascii')] (Python's limit on the number of digits is ignored). *)
Fixpoint dec_digits (n : nat) (z : Z) : list Z :=
  match n with
  | O => []
  | S n' => if z <? 10 then [48 + z] else dec_digits n' (z / 10) ++ [48 + z mod 10]
  end.
Definition int_text (z : Z) : list Z :=
  (if z <? 0 then [45] else []) ++ dec_digits (S (Z.to_nat (Z.log2 (Z.abs z)))) (Z.abs z).

(** [_do_dump] of the field classes that contain no other field.  [g] is
    [self.get_expected_size(all_fields)]. *)
Definition leaf_dump (c : fconf) (k : fkind) (g : res Z) (v : value) : dumped unit :=
  match k with
  | KInt signed e =>                                   (* numeric.py:197-212 *)
    match c_size c with
    | SInt n =>
      match v with
      | VInt z => catch_value_error (c_name c) (write_int z n signed e)
      | _ => draise EAttrErr
      end
    | _ => draise (EUndefinedSize (c_name c))
    end
  | KVli fmt max_bytes =>                              (* numeric.py:256-271 *)
    ddo enc <- catch_value_error (c_name c) (dlift (vli_encode_value fmt v));
    if match max_bytes with Some m => m <? zlen enc | None => false end
    then draise (EValueSize (c_name c))
    else dwrite enc
  | KFloat fmt e =>                                    (* numeric.py:104-115 *)
    match v with
    | VFloat bits => ddo bs <- dlift (pack_float fmt e bits); dwrite bs
    | VInt z =>
      match float_of_int z with
      | Some bits => ddo bs <- dlift (pack_float fmt e bits); dwrite bs
      | None => draise (ESerialization (c_name c))
      end
    | _ => draise (ESerialization (c_name c))
    end
  | KTime r _ signed e =>                              (* numeric.py:437-473 *)
    match v with
    | VTime us aware =>
      ddo t <- dlift (time_to_int r us aware);
      catch_value_error (c_name c)
        (ddo n <- dlift g; write_int t n signed e)
    | _ => draise EAttrErr
    end
  | KBytes =>                                          (* stringlike.py:38-46 *)
    ddo n <- dlift g;
    match py_len v with
    | Some l =>
      if negb (l =? n) then draise (EValueSize (c_name c))
      else match v with VBytes bs => dwrite bs | _ => draise ETypeErr end
    | None => draise ETypeErr
    end
  | KString cd pad =>                                  (* stringlike.py:109-114 *)
    match v with
    | VStr s => ddo bs <- dlift (encode_and_resize c cd pad g s); dwrite bs
    | _ => draise EAttrErr
    end
  | KStringZ cd _ =>                                   (* stringlike.py:182-186 *)
    match v with
    | VStr s => ddo bs <- dlift (encode cd (s ++ [0])); dwrite bs
    | _ => draise ETypeErr
    end
  | KUuid fmt =>                                       (* stringlike.py:261-274 *)
    match v with
    | VUUID u => dwrite (uuid_dump fmt u)
    | _ =>
      match fmt with
      | CANONICAL_STRING =>
        (* str(data) is written whatever it is.  The texts of objects other than strings and
           integers are not modelled: they are taken not to fit. *)
        match v with
        | VStr s => ddo bs <- dlift (encode Ascii s); dwrite bs
        | VInt z => dwrite (int_text z)
        | _ => draise (EValueSize (c_name c))
        end
      | _ => draise EAttrErr
      end
    end
  | KArray _ _ _ | KNested _ | KUnion _ _ _ => draise ETypeErr (* not a leaf *)
  end.

(** base.py:965-996 [_read_exact_size] *)
Definition read_exact_size (c : fconf) (g : res Z) : loader (list Z) := fun s =>
  let offset := tell s in
  match g with
  | Ok n =>
    let '(data, s') := read s n in
    if zlen data <? n then (s', Raise (EUnexpectedEOF (c_name c) n offset))
    else (s', Ok data)
  | Raise e => (s, Raise e)
  | OOF => (s, OOF)
  end.

(** stringlike.py:168-180: the decoding loop of StringZ.  [buf] is the incremental
    decoder's pending input, [acc] the text so far (reversed).  When the byte iterator ends,
    [iterdecode] flushes the decoder, which rejects pending bytes (but for [forgiven]). *)
Fixpoint stringz_loop (fuel : nat) (name : fname) (cd : codec) (max_bytes : option Z)
    (n_read : Z) (buf acc : list Z) : loader value := fun s =>
  match fuel with
  | O => (s, OOF)
  | S fuel' =>
    match iter_next max_bytes n_read s with
    | None =>
      (s, if forgiven cd buf then Raise (EDeserialization name) else Raise EUnicodeDecode)
    | Some (b, s') =>
      match dec_step cd (buf ++ [b]) with
      | DChar cp =>
        if cp =? 0 then (s', Ok (VStr (rev acc)))
        else stringz_loop fuel' name (started cd) max_bytes (n_read + 1) [] (cp :: acc) s'
      | DMore => stringz_loop fuel' name cd max_bytes (n_read + 1) (buf ++ [b]) acc s'
      | DBad => (s', Raise EUnicodeDecode)
      | DBom cd' => stringz_loop fuel' name cd' max_bytes (n_read + 1) [] acc s'
      | DNoBom => (s', Raise EUnicodeErr)
      end
    end
  end.

(** [_do_load] of the field classes that contain no other field.  [g] is
    [self.get_expected_size(loaded_fields)], [g0] is [self.get_expected_size({})]. *)
Definition leaf_load (c : fconf) (k : fkind) (g g0 : res Z) : loader value :=
  match k with
  | KInt signed e =>                                   (* numeric.py:185-194 *)
    match c_size c with
    | SInt n => ldo z <- read_int n signed e; lret (VInt z)
    | _ => lraise (EUndefinedSize (c_name c))
    end
  | KVli fmt _ =>                                      (* numeric.py:249-254 *)
    ldo z <- vli_decode fmt; lret (VInt z)
  | KFloat fmt e =>                                    (* numeric.py:91-102 *)
    ldo data <- read_exact_size c g0;
    if zlen data =? ff_bytes fmt then lret (VFloat (unpack_float fmt e data))
    else lraise (EDeserialization (c_name c))
  | KTime r tz signed e =>                             (* numeric.py:424-435 *)
    ldo n <- llift g;
    ldo z <- read_int n signed e;
    ldo us <- llift (time_of_int r tz z);
    lret (VTime us tz)
  | KBytes =>                                          (* stringlike.py:32-36 *)
    ldo data <- read_exact_size c g; lret (VBytes data)
  | KString cd _ =>                                    (* stringlike.py:101-107 *)
    ldo data <- read_exact_size c g;
    ldo s <- llift (decode cd data);
    lret (VStr s)
  | KStringZ cd _ => fun s =>                          (* stringlike.py:158-180 *)
    match (match g with
           | Ok n => Ok (Some n)
           | Raise e => if is_UndefinedSizeError e then Ok None else Raise e
           | OOF => OOF
           end) with
    | Ok max_bytes =>
      stringz_loop (S (length (rest s))) (c_name c) cd max_bytes 0 [] [] s
    | Raise e => (s, Raise e)
    | OOF => (s, OOF)
    end
  | KUuid fmt => fun s =>                              (* stringlike.py:245-259 *)
    match c_size c with
    | SInt n =>
      let '(raw, s') := read s n in
      if zlen raw <? n then (s', Raise (EUnexpectedEOF (c_name c) n (tell s')))
      else
        (* UUID(bytes=...) insists on 16 bytes *)
        if match fmt with
           | BINARY_VARIANT_1 | BINARY_VARIANT_2 => negb (zlen raw =? 16)
           | _ => false
           end
        then (s', Raise EValueErr)
        else match uuid_parse fmt raw with
             | Ok u => (s', Ok (VUUID u))
             | Raise e => (s', Raise e)
             | OOF => (s', OOF)
             end
    | _ => (s, Raise ETypeErr)
    end
  | KArray _ _ _ | KNested _ | KUnion _ _ _ => lraise ETypeErr (* not a leaf *)
  end.

(** base.py:400-460 [compute_value_for_dump], as a query on [all_values]. *)
Definition default_query (c : fconf) : query value :=
  match c_factory c with
  | Some (inl v) => QRet v
  | Some (inr e) => QRaise e
  | None => QRet (c_default c)
  end.

Definition fallback_value (c : fconf) : query value :=
  if negb (is_undefined (c_default c)) then default_query c
  else match c_compute c with Some q => q | None => QRet VUndefined end.

Definition stored_or_fallback (c : fconf) : query value :=
  match c_name c with
  | Some n =>
    QIn n (fun b => if b then QGet n (fun r => match r with
                                              | inl v => QRet v
                                              | inr e => QRaise e
                                              end)
                    else fallback_value c)
  | None => fallback_value c
  end.

Definition compute_value_for_dump (c : fconf) (ctx : value) : query value :=
  qbind (stored_or_fallback c) (fun v =>
    if is_not_present v then QRet VNotPresent
    else qbind (c_present c ctx None) (fun p =>
      if negb p then QRet VNotPresent
      else if is_undefined v then QRaise (EMissingRequired (c_name c))
      else QRet v)).

(** base.py:852-864 and stringlike.py:143-146 [_add_padding] *)
Definition add_padding (c : fconf) (k : fkind) (serialized : list Z) (to_size : Z)
  : res (list Z) :=
  match k with
  | KString _ (Some b) | KStringZ _ (Some b) =>
    Ok (serialized ++ repeat b (Z.to_nat (to_size - zlen serialized)))
  | _ => Raise (EValueSize (c_name c))
  end.

(** base.py:791-850 [Field.to_stream]; [nr] is [_get_null_repr(all_fields)], [dd] is
    [_do_dump] (into a fresh buffer), [g] is [get_expected_size(all_fields)]. *)
Definition to_stream_with (nr : res (list Z)) (dd : value -> dumped unit) (g : res Z)
    (c : fconf) (k : fkind) (data : value) : dumped unit :=
  ddo data <- dlift (if is_default data then default_of c else Ok data);
  if is_undefined data || is_default data then draise (EMissingRequired (c_name c))
  else
    ddo _ <- dlift (run_validators (c_validators c) data);
    if is_none data then ddo bs <- dlift nr; dwrite bs
    else
      let '(serialized_value, r) := dd data in
      ddo _ <- dlift r;
      ddo expected_size <- dlift (match c_size c with
                                  | SInt n => Ok n
                                  | SNone => Ok (zlen serialized_value)
                                  | SRef _ => g
                                  end);
      let size_diff := zlen serialized_value - expected_size in
      if 0 <? size_diff then draise (EValueSize (c_name c))
      else if size_diff <? 0 then
        ddo padded <- dlift (add_padding c k serialized_value expected_size);
        dwrite padded
      else dwrite serialized_value.

(** base.py:658-732 [Field.from_stream]; [nr] is [_get_null_repr(loaded_fields)], [dl] is
    [_do_load], [eqv] is Python's [==]. *)
Definition from_stream_with (nr : res (list Z)) (dl : loader value)
    (eqv : value -> value -> res bool) (c : fconf) (ctx : value) (d : dict)
  : loader value :=
  let load_value : loader value :=
    ldo v <- (fun s => match dl s with
                       | (s', Raise e) => (s', Raise (set_field (c_name c) e))
                       | x => x
                       end);
    ldo v <- llift (if allow_null c then
                      do b <- eqv v (c_null c); Ok (if b then VNone else v)
                    else Ok v);
    ldo _ <- llift (if negb (is_undefined (c_const c)) then
                      do b <- eqv v (c_const c);
                      if b then Ok tt else Raise (EValidation (c_name c))
                    else Ok tt);
    ldo _ <- llift (run_validators (c_validators c) v);
    lret v
  in
  fun s =>
  match run_dict d (c_present c ctx (Some s)) with
  | Ok false => (s, Ok (c_npv c))
  | Ok true =>
    if allow_null c then
      match nr with
      | Ok null_repr =>
        match peek_bytes (zlen null_repr) true s with
        | (s1, Ok potential_null_bytes) =>
          if bytes_eqb potential_null_bytes null_repr then
            let s2 := advance s1 (length null_repr) in
            match run_validators (c_validators c) VNone with
            | Ok _ => (s2, Ok VNone)
            | Raise e => (s2, Raise e)
            | OOF => (s2, OOF)
            end
          else load_value s1
        | (s1, Raise e) => (s1, Raise e)
        | (s1, OOF) => (s1, OOF)
        end
      | Raise e =>
        if is_UnserializableValueError e then
          if is_default (c_null c) then (s, Raise (ECannotDetermineNull (c_name c)))
          else load_value s
        else (s, Raise e)
      | OOF => (s, OOF)
      end
    else load_value s
  | Raise e => (s, Raise e)
  | OOF => (s, OOF)
  end.

(** base.py:1022-1028 [Field.__set__] on an instance whose [__values__] is [vals]. *)
Definition field_set (c : fconf) (vals : dict) (v : value) : res dict :=
  if match c_compute c with Some _ => true | None => false end
     || negb (is_undefined (c_const c))
  then Raise (EImmutable (c_name c))
  else
    do _ <- run_validators (c_validators c) v;
    match c_name c with
    | Some n => Ok (dset vals n v)
    | None => Raise ETypeErr (* unbound field: cannot happen on a struct instance *)
    end.
