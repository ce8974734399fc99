(** Model of struct classes with constructors of their own.  [Struct.__init__] is called through the
    class at four places (structures.py:510 and 624, containers.py:364 and 482); a subclass may take
    "additional arguments beyond the fields" there (structures.py:489-493, [init_kwargs]).  Everything
    else is as in StructModel.v.  Only what the constructor puts into [__values__] is modelled, not
    the other attributes of the instance. *)
From Verif Require Export StructModel.

(** [cls( **kwargs)] of each class: the new [__values__], or an exception. *)
Definition constructors := nat -> dict -> res dict.

Section Model.
Variable E : env.
Variable K : constructors.

(** [_do_dump] of every field class; containers.py:352-365 and 466-485 call constructors. *)
Fixpoint k_do_dump (n : nat) (f : field) (v ctx : value) (d : dict) : dumped unit :=
  match kind f with
  | KArray comp cnt _ =>
    match n with
    | O => ([], OOF)
    | S n' => array_dump (fun x => field_to_stream_with (k_do_dump n') comp x ctx d) (name_of f) cnt v d
    end
  | KNested cid =>                                     (* containers.py:352-365 *)
    match n with
    | O => ([], OOF)
    | S n' =>
      match v with
      | VStruct cid' vals => struct_to_stream_with E (k_do_dump n') n' cid' vals ctx
      | VDict vals =>
        ddo vals <- dlift (K cid vals);
        struct_to_stream_with E (k_do_dump n') n' cid vals ctx
      | _ => draise ETypeErr
      end
    end
  | KUnion choices _ dump_decider =>                   (* containers.py:466-485 *)
    match n with
    | O => ([], OOF)
    | S n' =>
      ddo i <- dlift (dump_decider v ctx d);
      match nth_error choices i with
      | Some (CField g) => field_to_stream_with (k_do_dump n') g v ctx d
      | Some (CStruct cid) =>
        match v with
        | VDict vals =>
          ddo vals <- dlift (K cid vals);
          struct_to_stream_with E (k_do_dump n') n' cid vals ctx
        | _ => draise ETypeErr
        end
      | None => draise ETypeErr
      end
    end
  | k => leaf_dump (conf f) k (get_expected_size_with (fun _ => draise ETypeErr) (conf f) k d) v
  end.

(** base.py:791-850 *)
Definition k_field_to_stream (n : nat) (f : field) (v ctx : value) (d : dict) : dumped unit :=
  field_to_stream_with (k_do_dump n) f v ctx d.

(** structures.py:366-385: an instance, however it was constructed, is dumped from its values. *)
Definition k_struct_to_stream (n : nat) (cid : nat) (vals : dict) (ctx : value) : dumped unit :=
  struct_to_stream_with E (k_do_dump n) n cid vals ctx.

(** base.py:658-732 *)
Definition k_field_from_stream_with (dl : floader) (n : nat) (f : field) (ctx : value) (d : dict) : loader value :=
  from_stream_with (null_repr (k_do_dump n) f d) (dl f ctx d) (py_eq E n) (conf f) ctx d.

(** structures.py:504-507 *)
Fixpoint k_load_fields (dl : floader) (n : nat) (fs : list (string * field)) (ctx : value) (results : dict) : loader dict :=
  match fs with
  | [] => lret results
  | (name, f) :: fs' =>
    ldo v <- k_field_from_stream_with dl n f ctx results;
    k_load_fields dl n fs' ctx (if dmem results name then results else results ++ [(name, v)])
  end.

(** structures.py:474-517 [Struct.from_stream]: the constructor gets [init_kwargs] and the values
    loaded for the fields that are not among them. *)
Definition k_struct_from_stream_with (dl : floader) (n : nat) (cid : nat) (ctx : value) (init_kwargs : dict) : loader dict :=
  ldo results <- k_load_fields dl n (comps E cid) ctx init_kwargs;
  ldo vals <- llift (K cid results);
  ldo _ <- llift (validate_contents E n cid vals);
  lret (delete_discard (comps E cid) vals).

(** [_do_load] of every field class.  Nested and Union have no [init_kwargs] to pass
    (containers.py:371, 497). *)
Fixpoint k_do_load (n : nat) (f : field) (ctx : value) (d : dict) : loader value :=
  match kind f with
  | KArray comp cnt halt =>                            (* containers.py:300-324 *)
    match n with
    | O => fun s => (s, OOF)
    | S n' => array_load n' (array_halt cnt halt (name_of f) ctx d)
                (k_field_from_stream_with (k_do_load n') n' comp ctx d) []
    end
  | KNested cid =>                                     (* containers.py:367-371 *)
    match n with
    | O => fun s => (s, OOF)
    | S n' =>
      ldo vals <- k_struct_from_stream_with (k_do_load n') n' cid ctx [];
      lret (VStruct cid vals)
    end
  | KUnion choices load_decider _ =>                   (* containers.py:487-501 *)
    match n with
    | O => fun s => (s, OOF)
    | S n' => fun s =>
      match load_decider s ctx d with
      | Ok i =>
        match nth_error choices i with
        | Some (CField g) => k_do_load n' g ctx d s
        | Some (CStruct cid) =>
          (ldo vals <- k_struct_from_stream_with (k_do_load n') n' cid ctx [];
           lret (VStruct cid vals)) s
        | None => (s, Raise ETypeErr)
        end
      | Raise e => (s, Raise e)
      | OOF => (s, OOF)
      end
    end
  | k => leaf_load (conf f) k
           (get_expected_size_with (fun v => k_do_dump n f v VNone d) (conf f) k d)
           (get_expected_size_with (fun v => k_do_dump n f v VNone []) (conf f) k [])
  end.

(** base.py:658-732 *)
Definition k_field_from_stream (n : nat) (f : field) (ctx : value) (d : dict) : loader value :=
  k_field_from_stream_with (k_do_load n) n f ctx d.

(** structures.py:474-517 *)
Definition k_struct_from_stream (n : nat) (cid : nat) (ctx : value) (init_kwargs : dict) : loader dict :=
  k_struct_from_stream_with (k_do_load n) n cid ctx init_kwargs.

(** structures.py:519-559 [Struct.from_bytes] *)
Definition k_struct_from_bytes (n : nat) (cid : nat) (data : list Z) (ctx : value) (exact : bool) (init_kwargs : dict)
  : res dict :=
  match k_struct_from_stream n cid ctx init_kwargs (mkStream data 0) with
  | (s', Ok vals) =>
    let here := tell s' in
    if exact && (here <? zlen data - 1) then Raise (EExtraneous None) else Ok vals
  | (_, Raise e) => Raise e
  | (_, OOF) => OOF
  end.

(** structures.py:599-622: the loop of [partial_load]. *)
Fixpoint k_partial_load_fields (n : nat) (fs : list (string * field)) (last_field : option string) (ctx : value)
    (result : dict) : loader dict := fun s =>
  match fs with
  | [] => (s, Ok result)
  | (_, f) :: fs' =>
    let offset := s_pos s in
    match k_field_from_stream n f ctx result s with
    | (s', Ok v) =>
      let result := if c_discard (conf f) then result else dset result (cname f) v in
      if match last_field with Some l => String.eqb (cname f) l | None => false end
      then (s', Ok result)
      else k_partial_load_fields n fs' last_field ctx result s'
    | (s', Raise e) =>
      if is_UnexpectedEOFError e then
        match last_field with
        | Some _ => (s', Raise e)
        | None => (mkStream (s_data s') offset, Ok result)
        end
      else (s', Raise e)
    | (s', OOF) => (s', OOF)
    end
  end.

(** structures.py:561-624 [partial_load]: it has no [init_kwargs] either. *)
Definition k_partial_load (n : nat) (cid : nat) (last_field : option string) (ctx : value) : loader dict := fun s =>
  if match last_field with
     | Some l => match assoc (comps E cid) l with Some _ => false | None => true end
     | None => false
     end
  then (s, Raise EValueErr)
  else (ldo result <- k_partial_load_fields n (comps E cid) last_field ctx [];
        llift (K cid result)) s.

(** structures.py:626-679 [get_field]: a field without a known offset is read with [partial_load]. *)
Definition k_get_field (n : nat) (cid : nat) (name : string) (ctx : value) : loader value :=
  fun s =>
  match assoc (comps E cid) name with
  | None => (s, Raise EValueErr)
  | Some f =>
    let original_offset := s_pos s in
    let restore := fun s' : stream => mkStream (s_data s') original_offset in
    match c_offset (conf f) with
    | Some off =>
      match seek s (Z.of_nat original_offset + off) with
      | (s1, Ok _) => let '(s', r) := k_field_from_stream n f ctx [] s1 in (restore s', r)
      | (s1, Raise e) => (restore s1, Raise e)
      | (s1, OOF) => (restore s1, OOF)
      end
    | None =>
      let '(s', r) := k_partial_load n cid (Some name) ctx s in
      match r with
      | Ok vals => (restore s', struct_get E n cid vals name)
      | Raise e => (restore s', Raise e)
      | OOF => (restore s', OOF)
      end
    end
  end.
End Model.
