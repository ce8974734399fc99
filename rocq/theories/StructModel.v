(** Model of fields/containers.py and structures.py.

    [n : nat] is fuel.  Everything is parameterised by the table of struct classes [E]. *)
From Verif Require Export FieldModel.

Section Model.
Variable E : env.

Definition comps (cid : nat) : list (string * field) := k_comps (cls E cid).

(** ------------------------------------------------------------------ structs as mappings *)

(** structures.py:756-759 [Struct.__iter__]: names whose stored value is not UNDEFINED. *)
Definition struct_keys (vals : dict) : list string :=
  map fst (filter (fun kv => negb (is_undefined (snd kv))) vals).

(** [name in struct]: Struct has no [__contains__], so Python iterates over it. *)
Definition struct_mem (vals : dict) (name : string) : bool :=
  existsb (String.eqb name) (struct_keys vals).

(** structures.py:735-740 [__getitem__] + base.py:1015-1020 [Field.__get__]. *)
Fixpoint struct_get (n : nat) (cid : nat) (vals : dict) (name : string) : res value :=
  match assoc (comps cid) name with
  | None => Raise (EKeyErr name)
  | Some f =>
    match oget vals (name_of f) with
    | Some v => Ok v
    | None =>
      match n with
      | O => OOF
      | S n' => run_q (struct_mem vals) (struct_get n' cid vals) (struct_keys vals)
                      (compute_value_for_dump (conf f) VNone)
      end
    end
  end.

(** A user callable applied to a struct instance. *)
Definition run_struct {A} (n : nat) (cid : nat) (vals : dict) (q : query A) : res A :=
  run_q (struct_mem vals) (struct_get n cid vals) (struct_keys vals) q.

(** structures.py:335-340 [Struct.__init__]: the values dict, or UnexpectedValueError. *)
Definition struct_init (cid : nat) (values : dict) : res dict :=
  let extra := filter (fun k => match assoc (comps cid) k with Some _ => false | None => true end)
                      (dkeys values) in
  match extra with
  | [] => Ok values
  | _ => Raise (EUnexpectedValue extra)
  end.

(** structures.py:352-360: method validators of one field, then the next field. *)
Fixpoint run_method_validators (n : nat) (cid : nat) (vals : dict)
    (vs : list (value -> query unit)) (v : value) : res unit :=
  match vs with
  | [] => Ok tt
  | q :: vs' => do _ <- run_struct n cid vals (q v); run_method_validators n cid vals vs' v
  end.

Fixpoint validate_fields (n : nat) (cid : nat) (vals : dict)
    (fvs : list (string * list (value -> query unit))) : res unit :=
  match fvs with
  | [] => Ok tt
  | (f_name, vs) :: fvs' =>
    match assoc (comps cid) f_name with
    | None => Raise (EKeyErr f_name)
    | Some f =>
      do v <- struct_get n cid vals f_name;
      do _ <- run_validators (c_validators (conf f)) v;
      do _ <- run_method_validators n cid vals vs v;
      validate_fields n cid vals fvs'
    end
  end.

Fixpoint run_struct_validators (n : nat) (cid : nat) (vals : dict) (vs : list (query unit))
  : res unit :=
  match vs with
  | [] => Ok tt
  | q :: vs' => do _ <- run_struct n cid vals q; run_struct_validators n cid vals vs'
  end.

(** structures.py:342-364 [validate_contents] *)
Definition validate_contents (n : nat) (cid : nat) (vals : dict) : res unit :=
  do _ <- validate_fields n cid vals (k_fvals (cls E cid));
  run_struct_validators n cid vals (k_svals (cls E cid)).

(** structures.py:453-470: the loop that ignores library errors. *)
Fixpoint possible_values (n : nat) (cid : nat) (vals : dict) (fs : list (string * field))
    (dct : dict) : res dict :=
  match fs with
  | [] => Ok dct
  | (_, f) :: fs' =>
    match run_struct n cid vals (compute_value_for_dump (conf f) VNone) with
    | Ok v => possible_values n cid vals fs' (dset dct (cname f) v)
    | Raise e =>
      if is_binobj_Error e then possible_values n cid vals fs' dct else Raise e
    | OOF => OOF
    end
  end.

(** structures.py:444-472 [_to_dict_whatever_possible]; [dict(ChainMap(dct, proxy))] lists
    the struct's own keys first, then the remaining keys of [dct]; values come from [dct]
    if there, else from the struct. *)
Definition to_dict_whatever_possible (n : nat) (cid : nat) (vals : dict) : res dict :=
  do dct <- possible_values n cid vals (comps cid) [];
  let own := struct_keys vals in
  do first <- mapM (fun k => match dget dct k with
                             | Some v => Ok (k, v)
                             | None => do v <- struct_get n cid vals k; Ok (k, v)
                             end) own;
  Ok (first ++ filter (fun kv => negb (struct_mem vals (fst kv))) dct).

(** structures.py:428-434: values for the fields that are still missing, all computed
    against the same [dct]. *)
Definition missing_values (fs : list (string * field)) (dct : dict) : res dict :=
  mapM (fun nf => do v <- run_dict dct (compute_value_for_dump (conf (snd nf)) VNone);
                  Ok (cname (snd nf), v))
       (filter (fun nf => negb (dmem dct (cname (snd nf)))) fs).

(** [dct.update(...)] *)
Definition dupdate (d upd : dict) : dict :=
  fold_left (fun d kv => dset d (fst kv) (snd kv)) upd d.

(** structures.py:436-439: [del dct[field.name]] for discard fields. *)
Fixpoint drop_discard (fs : list (string * field)) (dct : dict) : res dict :=
  match fs with
  | [] => Ok dct
  | (_, f) :: fs' =>
    if c_discard (conf f) then
      if dmem dct (cname f) then drop_discard fs' (ddel dct (cname f))
      else Raise (EKeyErr (cname f))
    else drop_discard fs' dct
  end.

(** structures.py:291-305 [recursive_to_dicts] and 401-442 [Struct.to_dict].  Fuel bounds
    the nesting depth. *)
Fixpoint recursive_to_dicts (n : nat) (v : value) : res value :=
  match n with
  | O => OOF
  | S n' =>
    let to_dict := fun cid vals (keep : bool) =>
      do dct <- to_dict_whatever_possible n' cid vals;
      do upd <- missing_values (comps cid) dct;
      let dct := dupdate dct upd in
      do dct <- (if keep then Ok dct else drop_discard (comps cid) dct);
      mapM (fun kv => do v <- recursive_to_dicts n' (snd kv); Ok (fst kv, v)) dct in
    match v with
    | VStruct cid vals => do d <- to_dict cid vals false; Ok (VDict d)
    | VDict d =>
      do d' <- mapM (fun kv => do v <- recursive_to_dicts n' (snd kv); Ok (fst kv, v)) d;
      Ok (VDict d')
    | VList l => do l' <- mapM (recursive_to_dicts n') l; Ok (VList l')
    | v => Ok v
    end
  end.

(** The same conversion applied to the values of a dict. *)
Definition dicts_of (n : nat) (d : dict) : res dict :=
  mapM (fun kv => do v <- recursive_to_dicts n (snd kv); Ok (fst kv, v)) d.

(** structures.py:401-442 [Struct.to_dict] *)
Definition to_dict (n : nat) (cid : nat) (vals : dict) (keep_discardable : bool) : res dict :=
  do dct <- to_dict_whatever_possible n cid vals;
  do upd <- missing_values (comps cid) dct;
  let dct := dupdate dct upd in
  do dct <- (if keep_discardable then Ok dct else drop_discard (comps cid) dct);
  dicts_of n dct.

(** ------------------------------------------------------------------ dumping *)

(** A [_do_dump]: field, data, context, all_fields. *)
Definition dumper := field -> value -> value -> dict -> dumped unit.

(** base.py:578-619 and 910-963 with the field's own [_do_dump] supplied. *)
Definition ges (dd : dumper) (f : field) (d : dict) : res Z :=
  get_expected_size_with (fun v => dd f v VNone d) (conf f) (kind f) d.

Definition null_repr (dd : dumper) (f : field) (d : dict) : res (list Z) :=
  null_repr_with (fun v => dd f v VNone d) (ges dd f d) (conf f).

(** base.py:791-850 *)
Definition field_to_stream_with (dd : dumper) (f : field) (v ctx : value) (d : dict)
  : dumped unit :=
  to_stream_with (null_repr dd f d) (fun v => dd f v ctx d) (ges dd f d)
                 (conf f) (kind f) v.

(** structures.py:380-385: the dump loop over the components. *)
Fixpoint dump_fields (dd : dumper) (fs : list (string * field)) (ctx : value) (d : dict)
  : dumped unit :=
  match fs with
  | [] => dret tt
  | (_, f) :: fs' =>
    ddo v <- dlift (run_dict d (compute_value_for_dump (conf f) ctx));
    ddo _ <- (if is_not_present v then dret tt else field_to_stream_with dd f v ctx d);
    dump_fields dd fs' ctx d
  end.

(** structures.py:366-385 [Struct.to_stream] *)
Definition struct_to_stream_with (dd : dumper) (n : nat) (cid : nat) (vals : dict)
    (ctx : value) : dumped unit :=
  ddo _ <- dlift (validate_contents n cid vals);
  ddo all_fields <- dlift (to_dict n cid vals false);
  dump_fields dd (comps cid) ctx all_fields.

(** The count of an array: an integer, or any other object but None.  It differs from every
    number and cannot be ordered, as if it were not a float. *)
Inductive count := CountInt (n : Z) | CountOther.
Definition count_is (c : count) (z : Z) : bool := match c with CountInt n => z =? n | CountOther => false end.
Definition count_at_most (c : count) (z : Z) : res bool :=
  match c with CountInt n => Ok (n <=? z) | CountOther => Raise ETypeErr end.
Definition count_above (c : count) (z : Z) : res bool :=
  match c with CountInt n => Ok (z <? n) | CountOther => Raise ETypeErr end.
(** errors.py:448-462 [ArraySizeError.__init__]: it orders the two numbers for the message,
    which fails for a count that is not a number. *)
Definition array_size_error (name : fname) (c : count) (n_given : Z) : exn :=
  match c with CountInt n => EArraySize name n (Some n_given) | CountOther => ETypeErr end.

(** containers.py:120-168 [get_final_element_count] *)
Definition get_final_element_count (cnt : countspec) (d : dict) : res (option count) :=
  match cnt with
  | CntNone => Ok None
  | CntInt n => Ok (Some (CountInt n))
  | CntUnnamed => Raise (EConfig None)
  | CntRef name =>
    match dget d name with
    | None => Raise (EFieldReference name)
    | Some (VInt n) => Ok (Some (CountInt n))
    | Some VNone => Ok None
    | Some _ => Ok (Some CountOther)
    end
  end.

(** The code points of a field name (names are ASCII in the model). *)
Fixpoint str_codes (s : string) : list Z :=
  match s with
  | EmptyString => []
  | String a s' => Z.of_N (Ascii.N_of_ascii a) :: str_codes s'
  end.

(** What iterating over a sized value yields (a dict yields its keys); [None]: not a sized
    iterable.  Dumping a Struct instance as an array of its field names is not modelled
    (TypeError). *)
Definition sized_items (v : value) : option (list value) :=
  match v with
  | VList l => Some l
  | VBytes bs => Some (map VInt bs)
  | VStr s => Some (map (fun cp => VStr [cp]) s)
  | VDict d => Some (map (fun k => VStr (str_codes k)) (dkeys d))
  | _ => None
  end.

(** containers.py:269-270 *)
Fixpoint dump_items (dump1 : value -> dumped unit) (l : list value) : dumped unit :=
  match l with
  | [] => dret tt
  | v :: l' => ddo _ <- dump1 v; dump_items dump1 l'
  end.

(** containers.py:281-298 [_dump_unsized]; [n_written] elements are already written. *)
Fixpoint dump_unsized (dump1 : value -> dumped unit) (name : fname) (n_elems : option count)
    (n_written : Z) (l : list value) : dumped unit :=
  match l with
  | [] =>
    match n_elems with
    | Some c =>
      ddo short <- dlift (count_above c n_written);
      if short then draise (array_size_error name c n_written) else dret tt
    | None => dret tt
    end
  | v :: l' =>
    if match n_elems with Some c => count_is c n_written | None => false end
    then draise (match n_elems with
                 | Some c => array_size_error name c (n_written + 1)
                 | None => ETypeErr (* not reached *)
                 end)
    else ddo _ <- dump1 v; dump_unsized dump1 name n_elems (n_written + 1) l'
  end.

(** containers.py:239-270 [Array._do_dump] *)
Definition array_dump (dump1 : value -> dumped unit) (name : fname) (cnt : countspec)
    (v : value) (d : dict) : dumped unit :=
  ddo n_elems <- dlift (get_final_element_count cnt d);
  match sized_items v with
  | Some l =>
    match n_elems with
    | Some c =>
      if negb (count_is c (zlen l)) then draise (array_size_error name c (zlen l))
      else dump_items dump1 l
    | None => dump_items dump1 l
    end
  | None =>
    match v with
    | VGen l => dump_unsized dump1 name n_elems 0 l
    | _ => draise ETypeErr
    end
  end.

(** [_do_dump] of every field class.  Leaves need no fuel. *)
Fixpoint do_dump (n : nat) (f : field) (v ctx : value) (d : dict) : dumped unit :=
  match kind f with
  | KArray comp cnt _ =>
    match n with
    | O => ([], OOF)
    | S n' => array_dump (fun x => field_to_stream_with (do_dump n') comp x ctx d)
                         (name_of f) cnt v d
    end
  | KNested cid =>                                     (* containers.py:352-365 *)
    match n with
    | O => ([], OOF)
    | S n' =>
      match v with
      | VStruct cid' vals => struct_to_stream_with (do_dump n') n' cid' vals ctx
      | VDict vals =>
        ddo vals <- dlift (struct_init cid vals);
        struct_to_stream_with (do_dump n') n' cid vals ctx
      | _ => draise ETypeErr
      end
    end
  | KUnion choices _ dump_decider =>                   (* containers.py:466-485 *)
    match n with
    | O => ([], OOF)
    | S n' =>
      ddo i <- dlift (dump_decider v ctx d);
      match nth_error choices i with
      | Some (CField g) => field_to_stream_with (do_dump n') g v ctx d
      | Some (CStruct cid) =>
        match v with
        | VDict vals =>
          ddo vals <- dlift (struct_init cid vals);
          struct_to_stream_with (do_dump n') n' cid vals ctx
        | _ => draise ETypeErr
        end
      | None => draise ETypeErr
      end
    end
  | k => leaf_dump (conf f) k
           (get_expected_size_with (fun _ => draise ETypeErr) (conf f) k d) v
  end.

Definition get_expected_size (n : nat) (f : field) (d : dict) : res Z := ges (do_dump n) f d.

(** base.py:791-850 *)
Definition field_to_stream (n : nat) (f : field) (v ctx : value) (d : dict) : dumped unit :=
  field_to_stream_with (do_dump n) f v ctx d.

(** base.py:866-889 [Field.to_bytes] *)
Definition bytes_of (m : dumped unit) : res (list Z) :=
  match m with
  | (out, Ok _) => Ok out
  | (_, Raise e) => Raise e
  | (_, OOF) => OOF
  end.

Definition field_to_bytes (n : nat) (f : field) (v ctx : value) (d : dict) : res (list Z) :=
  bytes_of (field_to_stream n f v ctx d).

(** structures.py:366-399 *)
Definition struct_to_stream (n : nat) (cid : nat) (vals : dict) (ctx : value) : dumped unit :=
  struct_to_stream_with (do_dump n) n cid vals ctx.

Definition struct_to_bytes (n : nat) (cid : nat) (vals : dict) (ctx : value) : res (list Z) :=
  bytes_of (struct_to_stream n cid vals ctx).

(** structures.py:681-716 [partial_dump]; [field.to_stream(stream, value, context)] gets no
    all_fields.  [field.required] is [const is UNDEFINED and default is UNDEFINED]. *)
Fixpoint partial_dump_fields (n : nat) (fs : list (string * field)) (vals : dict)
    (last_field : option string) (ctx : value) : dumped unit :=
  match fs with
  | [] => dret tt
  | (_, f) :: fs' =>
    ddo dv <- dlift (default_of (conf f));
    let v := match dget vals (cname f) with Some v => v | None => dv end in
    if is_undefined v && match last_field with None => true | Some _ => false end
    then dret tt
    else
      if is_undefined v && (is_undefined (c_const (conf f)) && is_undefined dv)
      then draise (EMissingRequired (name_of f))
      else
        ddo _ <- field_to_stream n f v ctx [];
        if match last_field with Some l => String.eqb (cname f) l | None => false end
        then dret tt
        else partial_dump_fields n fs' vals last_field ctx
  end.

Definition partial_dump (n : nat) (cid : nat) (vals : dict) (last_field : option string)
    (ctx : value) : dumped unit :=
  partial_dump_fields n (comps cid) vals last_field ctx.

(** ------------------------------------------------------------------ sizes *)

(** structures.py:179-201 [StructMetadata.get_size]: [None] is Python's None. *)
Fixpoint sum_sizes (n : nat) (fs : list (string * field)) (d : dict) : res Z :=
  match fs with
  | [] => Ok 0
  | (_, f) :: fs' =>
    do a <- get_expected_size n f d;
    do b <- sum_sizes n fs' d;
    Ok (a + b)
  end.

Definition get_size_values (n : nat) (cid : nat) (d : dict) : res (option Z) :=
  match sum_sizes n (comps cid) d with
  | Ok z => Ok (Some z)
  | Raise e =>
    if is_UndefinedSizeError e || is_MissingRequiredValueError e then Ok None else Raise e
  | OOF => OOF
  end.

(** structures.py:718-731 [Struct.get_size] *)
Definition get_size (n : nat) (cid : nat) : res (option Z) := get_size_values n cid [].

(** structures.py:765-775: the loop of [__len__] *)
Fixpoint len_fields (n : nat) (fs : list (string * field)) (current : dict) : res Z :=
  match fs with
  | [] => Ok 0
  | (_, f) :: fs' =>
    do a <- match c_size (conf f) with
            | SInt z => Ok z
            | _ =>
              match get_expected_size n f current with
              | Raise e =>
                if is_binobj_Error e then
                  do v <- run_dict current (compute_value_for_dump (conf f) VNone);
                  do bs <- field_to_bytes n f v VNone [];
                  Ok (zlen bs)
                else Raise e
              | r => r
              end
            end;
    do b <- len_fields n fs' current;
    Ok (a + b)
  end.

(** structures.py:761-775 [__len__]; Python's [len()] rejects negative results. *)
Definition struct_len (n : nat) (cid : nat) (vals : dict) : res Z :=
  do current <- to_dict_whatever_possible n cid vals;
  do z <- len_fields n (comps cid) current;
  if z <? 0 then Raise EValueErr else Ok z.

(** ------------------------------------------------------------------ equality *)

(** Equality of two floats given as bit patterns (NaN differs from everything, 0 = -0). *)
Definition float_rat (bits : Z) : rat :=
  let '(m, e) := unpack_mag binary64 (magnitude binary64 bits) in
  let '(n, d) := dyadic m e in
  ((if sign_of binary64 bits then - n else n), d).

Definition rat_eqb (a b : rat) : bool := fst a * snd b =? fst b * snd a.

Definition float_eqb (a b : Z) : bool :=
  match classify binary64 a, classify binary64 b with
  | FNan, _ | _, FNan => false
  | FInf, FInf => Bool.eqb (sign_of binary64 a) (sign_of binary64 b)
  | FFinite, FFinite => rat_eqb (float_rat a) (float_rat b)
  | _, _ => false
  end.

Definition int_float_eqb (z bits : Z) : bool :=
  match classify binary64 bits with
  | FFinite => rat_eqb (z, 1) (float_rat bits)
  | _ => false
  end.

Fixpoint list_eq_with (eqv : value -> value -> res bool) (a b : list value) : res bool :=
  match a, b with
  | [], [] => Ok true
  | x :: a', y :: b' => do r <- eqv x y; if r then list_eq_with eqv a' b' else Ok false
  | _, _ => Ok false
  end.

Fixpoint dict_eq_with (eqv : value -> value -> res bool) (a b : dict) : res bool :=
  match a with
  | [] => Ok true
  | (k, x) :: a' =>
    match dget b k with
    | None => Ok false
    | Some y => do r <- eqv x y; if r then dict_eq_with eqv a' b else Ok false
    end
  end.

(** [{n: s[n] for n in list(s)}] converted by [recursive_to_dicts]; [list(s)] consults
    [len(s)] as a size hint, so an exception other than TypeError from [__len__]
    propagates. *)
Definition defined_values (n : nat) (cid : nat) (vals : dict) : res dict :=
  do _ <- match struct_len n cid vals with
          | Ok _ => Ok tt
          | Raise ETypeErr => Ok tt
          | Raise e => Raise e
          | OOF => OOF
          end;
  do d <- mapM (fun k => do v <- struct_get n cid vals k; Ok (k, v)) (struct_keys vals);
  dicts_of n d.

(** Python's [==] on values; structures.py:777-797 [Struct.__eq__] (also reached, with the
    operands swapped, when only the right operand is a Struct).  Dicts compare as finite
    maps, lists pointwise after their lengths (Python's identity shortcut for elements,
    visible only with NaN, is not modelled). *)
Fixpoint py_eq (n : nat) (a b : value) : res bool :=
  match n with
  | O => OOF
  | S n' =>
    let struct_eq := fun cid vals other =>
      match other with
      | VUndefined => Ok (forallb (fun kv => is_undefined (snd kv)) vals)
      | VStruct cid' vals' =>
        do mine <- defined_values n' cid vals;
        do theirs <- defined_values n' cid' vals';
        py_eq n' (VDict theirs) (VDict mine)
      | VDict d =>
        do mine <- defined_values n' cid vals;
        do theirs <- dicts_of n' d;
        py_eq n' (VDict theirs) (VDict mine)
      | _ =>
        do _ <- defined_values n' cid vals;
        Ok false
      end in
    match a, b with
    | VStruct cid vals, other => struct_eq cid vals other
    | other, VStruct cid vals => struct_eq cid vals other
    | VNone, VNone | VUndefined, VUndefined | VDefault, VDefault
    | VNotPresent, VNotPresent => Ok true
    | VInt x, VInt y => Ok (x =? y)
    | VFloat x, VFloat y => Ok (float_eqb x y)
    | VInt x, VFloat y | VFloat y, VInt x => Ok (int_float_eqb x y)
    | VBytes x, VBytes y => Ok (bytes_eqb x y)
    | VStr x, VStr y => Ok (bytes_eqb x y)
    | VUUID x, VUUID y => Ok (x =? y)
    | VTime x ax, VTime y ay => Ok (Bool.eqb ax ay && (x =? y))
    | VList x, VList y =>
      if negb (zlen x =? zlen y) then Ok false else list_eq_with (py_eq n') x y
    | VDict x, VDict y =>
      if negb (zlen x =? zlen y) then Ok false else dict_eq_with (py_eq n') x y
    | _, _ => Ok false
    end
  end.

(** ------------------------------------------------------------------ loading *)

(** A [_do_load]: field, context, loaded_fields. *)
Definition floader := field -> value -> dict -> loader value.

(** base.py:658-732 *)
Definition field_from_stream_with (dl : floader) (n : nat) (f : field) (ctx : value)
    (d : dict) : loader value :=
  from_stream_with (null_repr (do_dump n) f d) (dl f ctx d) (py_eq n) (conf f) ctx d.

(** structures.py:504-507: the load loop ([results.setdefault]). *)
Fixpoint load_fields (dl : floader) (n : nat) (fs : list (string * field)) (ctx : value)
    (results : dict) : loader dict :=
  match fs with
  | [] => lret results
  | (name, f) :: fs' =>
    ldo v <- field_from_stream_with dl n f ctx results;
    load_fields dl n fs' ctx (if dmem results name then results else results ++ [(name, v)])
  end.

(** structures.py:512-514: [del instance[field.name]] for discard fields. *)
Fixpoint delete_discard (fs : list (string * field)) (vals : dict) : dict :=
  match fs with
  | [] => vals
  | (_, f) :: fs' =>
    delete_discard fs' (if c_discard (conf f) then ddel vals (cname f) else vals)
  end.

(** structures.py:474-517 [Struct.from_stream]: the new instance's [__values__]. *)
Definition struct_from_stream_with (dl : floader) (n : nat) (cid : nat) (ctx : value)
    (init_kwargs : dict) : loader dict :=
  ldo results <- load_fields dl n (comps cid) ctx init_kwargs;
  ldo vals <- llift (struct_init cid results);
  ldo _ <- llift (validate_contents n cid vals);
  lret (delete_discard (comps cid) vals).

(** containers.py:171-237 [should_halt] *)
Definition should_halt (cnt : countspec) (name : fname) (s : stream) (values : list value)
    (d : dict) : res bool :=
  match cnt with
  | CntNone => Ok (match rest s with [] => true | _ => false end)
  | _ =>
    do c <- get_final_element_count cnt d;
    match c with
    | None => Raise (EUndefinedSize name)
    | Some c => count_at_most c (zlen values)
    end
  end.

(** containers.py:317-324: the load loop; [values] loaded so far. *)
Fixpoint array_load (fuel : nat) (halt : stream -> list value -> res (bool * list value))
    (load1 : loader value) (values : list value) : loader value := fun s =>
  match fuel with
  | O => (s, OOF)
  | S fuel' =>
    match halt s values with
    | Ok (true, values) => (s, Ok (VList values))
    | Ok (false, values) =>
      match load1 s with
      | (s', Ok v) =>
        array_load fuel' halt load1 (if is_not_present v then values else values ++ [v]) s'
      | (s', Raise e) => (s', Raise e)
      | (s', OOF) => (s', OOF)
      end
    | Raise e => (s, Raise e)
    | OOF => (s, OOF)
    end
  end.

Definition array_halt (cnt : countspec) (halt : option haltfn) (name : fname) (ctx : value)
    (d : dict) (s : stream) (values : list value) : res (bool * list value) :=
  match halt with
  | Some h => h s values ctx d
  | None => do b <- should_halt cnt name s values d; Ok (b, values)
  end.

(** [_do_load] of every field class. *)
Fixpoint do_load (n : nat) (f : field) (ctx : value) (d : dict) : loader value :=
  match kind f with
  | KArray comp cnt halt =>                            (* containers.py:300-324 *)
    match n with
    | O => fun s => (s, OOF)
    | S n' => array_load n' (array_halt cnt halt (name_of f) ctx d)
                (field_from_stream_with (do_load n') n' comp ctx d) []
    end
  | KNested cid =>                                     (* containers.py:367-371 *)
    match n with
    | O => fun s => (s, OOF)
    | S n' =>
      ldo vals <- struct_from_stream_with (do_load n') n' cid ctx [];
      lret (VStruct cid vals)
    end
  | KUnion choices load_decider _ =>                   (* containers.py:487-501 *)
    match n with
    | O => fun s => (s, OOF)
    | S n' => fun s =>
      match load_decider s ctx d with
      | Ok i =>
        match nth_error choices i with
        | Some (CField g) => do_load n' g ctx d s
        | Some (CStruct cid) =>
          (ldo vals <- struct_from_stream_with (do_load n') n' cid ctx [];
           lret (VStruct cid vals)) s
        | None => (s, Raise ETypeErr)
        end
      | Raise e => (s, Raise e)
      | OOF => (s, OOF)
      end
    end
  | k => leaf_load (conf f) k
           (get_expected_size_with (fun v => do_dump n f v VNone d) (conf f) k d)
           (get_expected_size_with (fun v => do_dump n f v VNone []) (conf f) k [])
  end.

(** base.py:658-732 *)
Definition field_from_stream (n : nat) (f : field) (ctx : value) (d : dict) : loader value :=
  field_from_stream_with (do_load n) n f ctx d.

(** base.py:734-771 [Field.from_bytes] *)
Definition field_from_bytes (n : nat) (f : field) (data : list Z) (ctx : value)
    (exact : bool) (d : dict) : res value :=
  match field_from_stream n f ctx d (mkStream data 0) with
  | (s', Ok v) =>
    let bytes_remaining := zlen data - tell s' in
    if exact && (0 <? bytes_remaining) then Raise (EExtraneous None) else Ok v
  | (_, Raise e) => Raise e
  | (_, OOF) => OOF
  end.

(** structures.py:474-517 *)
Definition struct_from_stream (n : nat) (cid : nat) (ctx : value) (init_kwargs : dict)
  : loader dict :=
  struct_from_stream_with (do_load n) n cid ctx init_kwargs.

(** structures.py:519-559 [Struct.from_bytes] *)
Definition struct_from_bytes (n : nat) (cid : nat) (data : list Z) (ctx : value)
    (exact : bool) (init_kwargs : dict) : res dict :=
  match struct_from_stream n cid ctx init_kwargs (mkStream data 0) with
  | (s', Ok vals) =>
    let here := tell s' in
    if exact && (here <? zlen data - 1) then Raise (EExtraneous None) else Ok vals
  | (_, Raise e) => Raise e
  | (_, OOF) => OOF
  end.

(** structures.py:599-622: the loop of [partial_load]. *)
Fixpoint partial_load_fields (n : nat) (fs : list (string * field))
    (last_field : option string) (ctx : value) (result : dict) : loader dict := fun s =>
  match fs with
  | [] => (s, Ok result)
  | (_, f) :: fs' =>
    let offset := s_pos s in
    match field_from_stream n f ctx result s with
    | (s', Ok v) =>
      let result := if c_discard (conf f) then result else dset result (cname f) v in
      if match last_field with Some l => String.eqb (cname f) l | None => false end
      then (s', Ok result)
      else partial_load_fields n fs' last_field ctx result s'
    | (s', Raise e) =>
      if is_UnexpectedEOFError e then
        match last_field with
        | Some _ => (s', Raise e)
        | None => (mkStream (s_data s') offset, Ok result)
        end
      else (s', Raise e)
    | (s', OOF) => (s', OOF)
    end
  end.

(** structures.py:561-624 [partial_load] *)
Definition partial_load (n : nat) (cid : nat) (last_field : option string) (ctx : value)
  : loader dict := fun s =>
  if match last_field with
     | Some l => match assoc (comps cid) l with Some _ => false | None => true end
     | None => false
     end
  then (s, Raise EValueErr)
  else (ldo result <- partial_load_fields n (comps cid) last_field ctx [];
        llift (struct_init cid result)) s.

(** structures.py:626-679 [get_field].  [finally: stream.seek(original_offset)] restores
    the position. *)
Definition get_field (n : nat) (cid : nat) (name : string) (ctx : value) : loader value :=
  fun s =>
  match assoc (comps cid) name with
  | None => (s, Raise EValueErr)
  | Some f =>
    let original_offset := s_pos s in
    let restore := fun s' : stream => mkStream (s_data s') original_offset in
    match c_offset (conf f) with
    | Some off =>
      match seek s (Z.of_nat original_offset + off) with
      | (s1, Ok _) =>
        let '(s', r) := field_from_stream n f ctx [] s1 in (restore s', r)
      | (s1, Raise e) => (restore s1, Raise e)
      | (s1, OOF) => (restore s1, OOF)
      end
    | None =>
      let '(s', r) := partial_load n cid (Some name) ctx s in
      match r with
      | Ok vals => (restore s', struct_get n cid vals name)
      | Raise e => (restore s', Raise e)
      | OOF => (restore s', OOF)
      end
    end
  end.

(** ------------------------------------------------------------------ item access *)

(** structures.py:742-748 [__setitem__]: the new [__values__]. *)
Definition struct_setitem (cid : nat) (vals : dict) (name : string) (v : value) : res dict :=
  match assoc (comps cid) name with
  | None => Raise (EKeyErr name)
  | Some f => field_set (conf f) vals v
  end.

(** structures.py:749-754 [__delitem__] *)
Definition struct_delitem (cid : nat) (vals : dict) (name : string) : res dict :=
  match assoc (comps cid) name with
  | None => Raise (EKeyErr name)
  | Some _ => Ok (ddel vals name)
  end.

End Model.
