(** Model of loading from streams other than [io.BytesIO]: those whose [read] may return fewer
    bytes than asked for before the end (raw files, sockets), and those that cannot [tell] or
    [seek] (pipes).  Loading is a program of calls on the stream; callables given the stream
    ([present], [load_decider], halt checks) are taken not to look at it. *)
From Verif Require Export StructModel.

Inductive prog (A : Type) :=
| PDone (r : res A)
| PRead (n : Z) (k : list Z -> prog A)     (* stream.read(n) *)
| PTell (k : Z -> prog A)                  (* stream.tell() *)
| PSeek (p : Z) (k : prog A)               (* stream.seek(p) *)
| PSkip (n : nat) (k : prog A).            (* stream.seek(n, os.SEEK_CUR) *)
Arguments PDone {A}. Arguments PRead {A}. Arguments PTell {A}. Arguments PSeek {A}. Arguments PSkip {A}.

Definition pret {A} (a : A) : prog A := PDone (Ok a).
Definition praise {A} (e : exn) : prog A := PDone (Raise e).

Fixpoint pbind {A B} (m : prog A) (k : A -> prog B) : prog B :=
  match m with
  | PDone (Ok a) => k a
  | PDone (Raise e) => PDone (Raise e)
  | PDone OOF => PDone OOF
  | PRead n f => PRead n (fun data => pbind (f data) k)
  | PTell f => PTell (fun p => pbind (f p) k)
  | PSeek p m' => PSeek p (pbind m' k)
  | PSkip n m' => PSkip n (pbind m' k)
  end.
Notation "'pdo' x <- m ; k" := (pbind m (fun x => k))
  (at level 200, x pattern, m at level 100, k at level 200, right associativity).

(** [except DeserializationError as err: err.field = self; raise] *)
Fixpoint pfield {A} (name : fname) (m : prog A) : prog A :=
  match m with
  | PDone (Raise e) => PDone (Raise (set_field name e))
  | PDone r => PDone r
  | PRead n f => PRead n (fun data => pfield name (f data))
  | PTell f => PTell (fun p => pfield name (f p))
  | PSeek p m' => PSeek p (pfield name m')
  | PSkip n m' => PSkip n (pfield name m')
  end.

(** A stream: [lim i] bounds the number of bytes returned by the [i]th [read] (at least one byte
    is returned unless the data has ended: the stream blocks); [sk]: whether it can [tell] and
    [seek].  The outcome is [None] if it cannot and is asked to (io.UnsupportedOperation). *)
Definition device_read (lim : option nat) (s : stream) (n : Z) : list Z * stream :=
  let '(data, s') := read s n in
  match lim with
  | None => (data, s')
  | Some k => if n <? 0 then (data, s') else let data := firstn (Nat.max 1 k) data in (data, advance s (length data))
  end.

Fixpoint run {A} (lim : nat -> option nat) (sk : bool) (p : prog A) (s : stream) (i : nat) : (stream * nat) * option (res A) :=
  match p with
  | PDone r => ((s, i), Some r)
  | PRead n k => let '(data, s') := device_read (lim i) s n in run lim sk (k data) s' (S i)
  | PTell k => if sk then run lim sk (k (tell s)) s i else ((s, i), None)
  | PSeek p k => if sk then match seek s p with
                            | (s', Ok _) => run lim sk k s' i
                            | (s', Raise e) => ((s', i), Some (Raise e))
                            | (s', OOF) => ((s', i), Some OOF)
                            end
                 else ((s, i), None)
  | PSkip n k => if sk then run lim sk k (advance s n) i else ((s, i), None)
  end.

(** helpers.py:19-52 *)
Definition p_read_int (n : Z) (signed : bool) (e : endian) : prog Z :=
  PTell (fun offset => PRead n (fun data =>
    if zlen data <? n then praise (EUnexpectedEOF None n offset) else pret (py_from_bytes data e signed))).

(** base.py:965-996 *)
Definition p_read_exact_size (c : fconf) (g : res Z) : prog (list Z) :=
  PTell (fun offset =>
    match g with
    | Ok n => PRead n (fun data => if zlen data <? n then praise (EUnexpectedEOF (c_name c) n offset) else pret data)
    | Raise e => PDone (Raise e)
    | OOF => PDone OOF
    end).

(** helpers.py:111-126 with [short_read_okay] *)
Definition p_peek_bytes (count : Z) : prog (list Z) :=
  PTell (fun here => PRead count (fun data => PSeek here (pret data))).

(** varints.py:89-262; [m] is fuel for the loops. *)
Definition p_read_uint8 : prog Z := p_read_int 1 false Little.

Fixpoint p_compact_loop (m : nat) (sign : option Z) (value : Z) : prog Z :=
  match m with
  | O => PDone OOF
  | S m' =>
    pdo int8 <- p_read_uint8;
    let '(value, sign) :=
      match sign with
      | None => (Z.land int8 63, if Z.land int8 64 =? 0 then 1 else -1)
      | Some sg => (Z.lor (Z.shiftl value 7) (Z.land int8 127), sg)
      end in
    if Z.land int8 128 =? 0 then pret (value * sign) else p_compact_loop m' (Some sign) value
  end.

Fixpoint p_vlq_loop (m : nat) (value : Z) : prog Z :=
  match m with
  | O => PDone OOF
  | S m' =>
    pdo int8 <- p_read_uint8;
    let value := Z.lor (Z.shiftl value 7) (Z.land int8 127) in
    if Z.land int8 128 =? 0 then pret value else p_vlq_loop m' value
  end.

Fixpoint p_uleb_loop (m : nat) (value bits_read : Z) : prog Z :=
  match m with
  | O => PDone OOF
  | S m' =>
    pdo int8 <- p_read_uint8;
    let value := Z.lor value (Z.shiftl (Z.land int8 127) bits_read) in
    let bits_read := bits_read + 7 in
    if Z.land int8 128 =? 0 then pret value else p_uleb_loop m' value bits_read
  end.

Definition p_leb128 (m : nat) : prog Z :=
  PTell (fun starting_offset =>
    pdo value <- p_uleb_loop m 0 0;
    if value =? 0 then pret 0
    else PTell (fun here =>
      let n_bits_read := (here - starting_offset) * 7 in
      if bit_length value <? n_bits_read then pret value else pret (- (Z.shiftl 1 n_bits_read - value)))).

Definition p_vli_decode (m : nat) (fmt : vli_format) : prog Z :=
  match fmt with
  | COMPACT_INDICES => p_compact_loop m None 0
  | LEB128 => p_leb128 m
  | ULEB128 => p_uleb_loop m 0 0
  | VLQ => p_vlq_loop m 0
  end.

(** stringlike.py:168-180 and helpers.py:101-108 *)
Fixpoint p_stringz_loop (m : nat) (name : fname) (cd : codec) (max_bytes : option Z)
    (n_read : Z) (buf acc : list Z) : prog value :=
  match m with
  | O => PDone OOF
  | S m' =>
    let at_end := if forgiven cd buf then praise (EDeserialization name) else praise EUnicodeDecode in
    if match max_bytes with None => true | Some mx => n_read <? mx end then
      PRead 1 (fun this_byte =>
        match this_byte with
        | [] => at_end
        | b :: _ =>
          match dec_step cd (buf ++ [b]) with
          | DChar cp =>
            if cp =? 0 then pret (VStr (rev acc))
            else p_stringz_loop m' name (started cd) max_bytes (n_read + 1) [] (cp :: acc)
          | DMore => p_stringz_loop m' name cd max_bytes (n_read + 1) (buf ++ [b]) acc
          | DBad => praise EUnicodeDecode
          | DBom cd' => p_stringz_loop m' name cd' max_bytes (n_read + 1) [] acc
          | DNoBom => praise EUnicodeErr
          end
        end)
    else at_end
  end.

(** The [_do_load] of the field classes without components (see [leaf_load]). *)
Definition p_leaf_load (m : nat) (c : fconf) (k : fkind) (g g0 : res Z) : prog value :=
  match k with
  | KInt signed e =>                                   (* numeric.py:185-194 *)
    match c_size c with
    | SInt n => pdo z <- p_read_int n signed e; pret (VInt z)
    | _ => praise (EUndefinedSize (c_name c))
    end
  | KVli fmt _ =>                                      (* numeric.py:249-254 *)
    pdo z <- p_vli_decode m fmt; pret (VInt z)
  | KFloat fmt e =>                                    (* numeric.py:91-102 *)
    pdo data <- p_read_exact_size c g0;
    if zlen data =? ff_bytes fmt then pret (VFloat (unpack_float fmt e data)) else praise (EDeserialization (c_name c))
  | KTime r tz signed e =>                             (* numeric.py:424-435 *)
    pdo n <- PDone g;
    pdo z <- p_read_int n signed e;
    pdo us <- PDone (time_of_int r tz z);
    pret (VTime us tz)
  | KBytes =>                                          (* stringlike.py:32-36 *)
    pdo data <- p_read_exact_size c g; pret (VBytes data)
  | KString cd _ =>                                    (* stringlike.py:101-107 *)
    pdo data <- p_read_exact_size c g;
    pdo s <- PDone (decode cd data);
    pret (VStr s)
  | KStringZ cd _ =>                                   (* stringlike.py:158-180 *)
    match (match g with
           | Ok n => Ok (Some n)
           | Raise e => if is_UndefinedSizeError e then Ok None else Raise e
           | OOF => OOF
           end) with
    | Ok max_bytes => p_stringz_loop m (c_name c) cd max_bytes 0 [] []
    | Raise e => PDone (Raise e)
    | OOF => PDone OOF
    end
  | KUuid fmt =>                                       (* stringlike.py:245-259 *)
    match c_size c with
    | SInt n =>
      PRead n (fun raw =>
        if zlen raw <? n then PTell (fun offset => praise (EUnexpectedEOF (c_name c) n offset))
        else
          if match fmt with
             | BINARY_VARIANT_1 | BINARY_VARIANT_2 => negb (zlen raw =? 16)
             | _ => false
             end
          then praise EValueErr
          else pdo u <- PDone (uuid_parse fmt raw); pret (VUUID u))
    | _ => praise ETypeErr
    end
  | KArray _ _ _ | KNested _ | KUnion _ _ _ => praise ETypeErr
  end.

(** What callables are given for the stream. *)
Definition unseen : stream := mkStream [] 0.

(** base.py:658-732 *)
Definition p_from_stream_with (nr : res (list Z)) (dl : prog value)
    (eqv : value -> value -> res bool) (c : fconf) (ctx : value) (d : dict) : prog value :=
  let load_value :=
    pdo v <- pfield (c_name c) dl;
    pdo v <- PDone (if allow_null c then do b <- eqv v (c_null c); Ok (if b then VNone else v) else Ok v);
    pdo _ <- PDone (if negb (is_undefined (c_const c)) then
                      do b <- eqv v (c_const c);
                      if b then Ok tt else Raise (EValidation (c_name c))
                    else Ok tt);
    pdo _ <- PDone (run_validators (c_validators c) v);
    pret v
  in
  pdo present <- PDone (run_dict d (c_present c ctx (Some unseen)));
  if negb present then pret (c_npv c)
  else if allow_null c then
    match nr with
    | Ok null_repr =>
      pdo potential_null_bytes <- p_peek_bytes (zlen null_repr);
      if bytes_eqb potential_null_bytes null_repr then
        PSkip (length null_repr) (pdo _ <- PDone (run_validators (c_validators c) VNone); pret VNone)
      else load_value
    | Raise e =>
      if is_UnserializableValueError e then
        if is_default (c_null c) then praise (ECannotDetermineNull (c_name c)) else load_value
      else praise e
    | OOF => PDone OOF
    end
  else load_value.

Section Loading.
Variable E : env.
Variable m : nat.

Definition ploader := field -> value -> dict -> prog value.

(** base.py:658-732 *)
Definition p_field_from_stream_with (dl : ploader) (n : nat) (f : field) (ctx : value) (d : dict) : prog value :=
  p_from_stream_with (null_repr (do_dump E n) f d) (dl f ctx d) (py_eq E n) (conf f) ctx d.

(** structures.py:504-507 *)
Fixpoint p_load_fields (dl : ploader) (n : nat) (fs : list (string * field)) (ctx : value) (results : dict) : prog dict :=
  match fs with
  | [] => pret results
  | (name, f) :: fs' =>
    pdo v <- p_field_from_stream_with dl n f ctx results;
    p_load_fields dl n fs' ctx (if dmem results name then results else results ++ [(name, v)])
  end.

(** structures.py:474-517 *)
Definition p_struct_from_stream_with (dl : ploader) (n : nat) (cid : nat) (ctx : value) (init_kwargs : dict) : prog dict :=
  pdo results <- p_load_fields dl n (comps E cid) ctx init_kwargs;
  pdo vals <- PDone (struct_init E cid results);
  pdo _ <- PDone (validate_contents E n cid vals);
  pret (delete_discard (comps E cid) vals).

(** containers.py:171-237 *)
Definition p_array_halt (cnt : countspec) (halt : option haltfn) (name : fname) (ctx : value) (d : dict) (values : list value)
  : prog (bool * list value) :=
  match halt with
  | Some h => PDone (h unseen values ctx d)
  | None =>
    match cnt with
    | CntNone =>
      PTell (fun offset => PRead 1 (fun data => PSeek offset (pret (match data with [] => true | _ => false end, values))))
    | _ => PDone (do b <- should_halt cnt name unseen values d; Ok (b, values))
    end
  end.

(** containers.py:317-324 *)
Fixpoint p_array_load (fuel : nat) (halt : list value -> prog (bool * list value)) (load1 : prog value) (values : list value) : prog value :=
  match fuel with
  | O => PDone OOF
  | S fuel' =>
    pdo hv <- halt values;
    let '(stop, values) := hv : bool * list value in
    if stop then pret (VList values)
    else pdo v <- load1; p_array_load fuel' halt load1 (if is_not_present v then values else values ++ [v])
  end.

(** [_do_load] of every field class. *)
Fixpoint p_do_load (n : nat) (f : field) (ctx : value) (d : dict) : prog value :=
  match kind f with
  | KArray comp cnt halt =>                            (* containers.py:300-324 *)
    match n with
    | O => PDone OOF
    | S n' => p_array_load n' (p_array_halt cnt halt (name_of f) ctx d)
                (p_field_from_stream_with (p_do_load n') n' comp ctx d) []
    end
  | KNested cid =>                                     (* containers.py:367-371 *)
    match n with
    | O => PDone OOF
    | S n' => pdo vals <- p_struct_from_stream_with (p_do_load n') n' cid ctx []; pret (VStruct cid vals)
    end
  | KUnion choices load_decider _ =>                   (* containers.py:487-501 *)
    match n with
    | O => PDone OOF
    | S n' =>
      pdo i <- PDone (load_decider unseen ctx d);
      match nth_error choices i with
      | Some (CField g) => p_do_load n' g ctx d
      | Some (CStruct cid) => pdo vals <- p_struct_from_stream_with (p_do_load n') n' cid ctx []; pret (VStruct cid vals)
      | None => praise ETypeErr
      end
    end
  | k => p_leaf_load m (conf f) k
           (get_expected_size_with (fun v => do_dump E n f v VNone d) (conf f) k d)
           (get_expected_size_with (fun v => do_dump E n f v VNone []) (conf f) k [])
  end.

Definition p_field_from_stream (n : nat) (f : field) (ctx : value) (d : dict) : prog value :=
  p_field_from_stream_with (p_do_load n) n f ctx d.

(** structures.py:474-517 [Struct.from_stream] *)
Definition p_struct_from_stream (n : nat) (cid : nat) (ctx : value) (init_kwargs : dict) : prog dict :=
  p_struct_from_stream_with (p_do_load n) n cid ctx init_kwargs.
End Loading.
