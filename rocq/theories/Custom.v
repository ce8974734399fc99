(** Model of fields defined by users of the library: subclasses of [Field] with their own
    [_do_dump], [_do_load], [_size_for_value] and [_add_padding], any functions at all, and of
    arrays, unions and structs made of them.  The objects they handle are the model's values;
    [_do_dump] is taken not to ask for the size of a null value of a field without a size. *)
From Verif Require Export StructModel.

Record ufield := UField {
  u_conf : fconf;
  u_size_for : value -> res (option Z);                (* _size_for_value(value) *)
  u_pad : list Z -> Z -> res (list Z);                 (* _add_padding(serialized, to_size) *)
  u_dump : value -> value -> dict -> dumped unit;      (* _do_dump(stream, data, context, all_fields) *)
  u_load : value -> dict -> loader value               (* _do_load(stream, context, loaded_fields) *)
}.

(** base.py:545-566: [_size_for_value] if not overridden. *)
Definition base_size_for (c : fconf) (v : value) : res (option Z) :=
  match c_size c with SInt n => Ok (Some n) | _ => Ok None end.

(** base.py:852-864: [_add_padding] if not overridden. *)
Definition base_pad (c : fconf) (serialized : list Z) (to_size : Z) : res (list Z) := Raise (EValueSize (c_name c)).

(** base.py:621-656 and 910-963 for a field without a size: the length of its null value. *)
Definition u_null_len (f : ufield) (d : dict) : res Z :=
  match c_null (u_conf f) with
  | VUndefined => Raise (EUnserializable (c_name (u_conf f)))
  | VBytes bs => Ok (zlen bs)
  | VDefault | VNone => Raise (EBuggyField (c_name (u_conf f)))
  | v => match u_dump f v VNone d with
         | (out, Ok _) => Ok (zlen out)
         | (_, Raise e) => Raise e
         | (_, OOF) => OOF
         end
  end.

(** base.py:578-656 [get_expected_size] *)
Definition u_get_expected_size (f : ufield) (d : dict) : res Z :=
  let c := u_conf f in
  match c_size c with
  | SInt n => Ok n
  | SNone =>
    do v <- match oget d (c_name c) with
            | Some v => Ok v
            | None => do dv <- default_of c;
                      if is_undefined dv then Raise (EUndefinedSize (c_name c)) else Ok dv
            end;
    if is_none v then u_null_len f d
    else do sz <- u_size_for f v;
         match sz with Some n => Ok n | None => Raise (EUndefinedSize (c_name c)) end
  | SRef name =>
    match dget d name with
    | Some (VInt n) => Ok n
    | Some _ => Raise ETypeErr
    | None => Raise (EMissingRequired (Some name))
    end
  end.

(** base.py:910-963 [_get_null_repr] *)
Definition u_null_repr (f : ufield) (d : dict) : res (list Z) :=
  null_repr_with (fun v => u_dump f v VNone d) (u_get_expected_size f d) (u_conf f).

(** base.py:791-850 [Field.to_stream] *)
Definition u_to_stream (f : ufield) (data ctx : value) (d : dict) : dumped unit :=
  let c := u_conf f in
  ddo data <- dlift (if is_default data then default_of c else Ok data);
  if is_undefined data || is_default data then draise (EMissingRequired (c_name c))
  else
    ddo _ <- dlift (run_validators (c_validators c) data);
    if is_none data then ddo bs <- dlift (u_null_repr f d); dwrite bs
    else
      let '(serialized_value, r) := u_dump f data ctx d in
      ddo _ <- dlift r;
      ddo expected_size <- dlift (match c_size c with
                                  | SInt n => Ok n
                                  | SNone => Ok (zlen serialized_value)
                                  | SRef _ => u_get_expected_size f d
                                  end);
      let size_diff := zlen serialized_value - expected_size in
      if 0 <? size_diff then draise (EValueSize (c_name c))
      else if size_diff <? 0 then
        ddo padded <- dlift (u_pad f serialized_value expected_size);
        dwrite padded
      else dwrite serialized_value.

Section Structs.
(** [eqv] is Python's [==]. *)
Variable eqv : value -> value -> res bool.

(** base.py:658-732 [Field.from_stream] *)
Definition u_from_stream (f : ufield) (ctx : value) (d : dict) : loader value :=
  from_stream_with (u_null_repr f d) (u_load f ctx d) eqv (u_conf f) ctx d.

(** base.py:734-771 [Field.from_bytes] *)
Definition u_from_bytes (f : ufield) (data : list Z) (ctx : value) (exact : bool) (d : dict) : res value :=
  match u_from_stream f ctx d (mkStream data 0) with
  | (s', Ok v) => if exact && (0 <? zlen data - tell s') then Raise (EExtraneous None) else Ok v
  | (_, Raise e) => Raise e
  | (_, OOF) => OOF
  end.

(** structures.py:380-385: the dump loop. *)
Fixpoint u_dump_fields (fs : list (string * ufield)) (ctx : value) (d : dict) : dumped unit :=
  match fs with
  | [] => dret tt
  | (_, f) :: fs' =>
    ddo v <- dlift (run_dict d (compute_value_for_dump (u_conf f) ctx));
    ddo _ <- (if is_not_present v then dret tt else u_to_stream f v ctx d);
    u_dump_fields fs' ctx d
  end.

(** structures.py:504-507: the load loop. *)
Fixpoint u_load_fields (fs : list (string * ufield)) (ctx : value) (results : dict) : loader dict :=
  match fs with
  | [] => lret results
  | (name, f) :: fs' =>
    ldo v <- u_from_stream f ctx results;
    u_load_fields fs' ctx (if dmem results name then results else results ++ [(name, v)])
  end.

Variable E : env.
Variable n : nat.

(** structures.py:366-385 [Struct.to_stream] for the class [cid] of [E] with the fields [fs];
    the kinds of the fields in [E] do not matter. *)
Definition u_struct_to_stream (fs : list (string * ufield)) (cid : nat) (vals : dict) (ctx : value) : dumped unit :=
  ddo _ <- dlift (validate_contents E n cid vals);
  ddo all_fields <- dlift (to_dict E n cid vals false);
  u_dump_fields fs ctx all_fields.

(** structures.py:474-517 [Struct.from_stream] *)
Definition u_struct_from_stream (fs : list (string * ufield)) (cid : nat) (ctx : value) (init_kwargs : dict) : loader dict :=
  ldo results <- u_load_fields fs ctx init_kwargs;
  ldo vals <- llift (struct_init E cid results);
  ldo _ <- llift (validate_contents E n cid vals);
  lret (delete_discard (comps E cid) vals).

(** containers.py:239-324 [Array] of such a field; [m] is fuel for the loop. *)
Definition u_array (m : nat) (c : fconf) (comp : ufield) (cnt : countspec) (halt : option haltfn) : ufield :=
  UField c (base_size_for c) (base_pad c)
    (fun v ctx d => array_dump (fun x => u_to_stream comp x ctx d) (c_name c) cnt v d)
    (fun ctx d => array_load m (array_halt cnt halt (c_name c) ctx d) (u_from_stream comp ctx d) []).

(** containers.py:352-371 [Nested]; instances of other classes than [cid] are not modelled. *)
Definition u_nested (c : fconf) (fs : list (string * ufield)) (cid : nat) : ufield :=
  UField c (base_size_for c) (base_pad c)
    (fun v ctx d => match v with
                    | VStruct _ vals => u_struct_to_stream fs cid vals ctx
                    | VDict vals => ddo vals <- dlift (struct_init E cid vals); u_struct_to_stream fs cid vals ctx
                    | _ => draise ETypeErr
                    end)
    (fun ctx d => ldo vals <- u_struct_from_stream fs cid ctx []; lret (VStruct cid vals)).

(** containers.py:466-501 [Union] of fields *)
Definition u_union (c : fconf) (choices : list ufield) (ld : stream -> value -> dict -> res nat) (dmp : value -> value -> dict -> res nat) : ufield :=
  UField c (base_size_for c) (base_pad c)
    (fun v ctx d => ddo i <- dlift (dmp v ctx d);
                    match nth_error choices i with
                    | Some g => u_to_stream g v ctx d
                    | None => draise ETypeErr
                    end)
    (fun ctx d s => match ld s ctx d with
                    | Ok i => match nth_error choices i with
                              | Some g => u_load g ctx d s
                              | None => (s, Raise ETypeErr)
                              end
                    | Raise e => (s, Raise e)
                    | OOF => (s, OOF)
                    end).
End Structs.

(** The library's own fields as such fields. *)
Definition builtin (E : env) (n : nat) (f : field) : ufield :=
  UField (conf f) (size_for_value (conf f) (kind f)) (add_padding (conf f) (kind f)) (do_dump E n f) (do_load E n f).
