(** Model of dumping where warnings are errors ([python -W error]): every [warnings.warn] on the
    way raises the warning instead.  Elsewhere in the model warnings do nothing. *)
From Verif Require Export StructModel.
Open Scope list_scope.
Open Scope Z_scope.

(** A DeprecationWarning that is raised. *)
Definition deprecation : exn := EOther (-1).

(** numeric.py:445-458: a date with a time zone for a field that has none, or the reverse. *)
Definition zone_mismatch (k : fkind) (v : value) : bool :=
  match k, v with
  | KTime _ tz _ _, VTime _ aware => negb (Bool.eqb aware tz)
  | _, _ => false
  end.

(** structures.py:458: errors that are ignored silently. *)
Definition ignored_silently (e : exn) : bool := is_SerializationError e || is_UndefinedSizeError e.

Section Warn.
Variable E : env.

(** structures.py:453-470 *)
Fixpoint s_possible_values (n : nat) (cid : nat) (vals : dict) (fs : list (string * field)) (dct : dict) : res dict :=
  match fs with
  | [] => Ok dct
  | (_, f) :: fs' =>
    match run_struct E n cid vals (compute_value_for_dump (conf f) VNone) with
    | Ok v => s_possible_values n cid vals fs' (dset dct (cname f) v)
    | Raise e =>
      if ignored_silently e then s_possible_values n cid vals fs' dct
      else if is_binobj_Error e then Raise deprecation
      else Raise e
    | OOF => OOF
    end
  end.

(** structures.py:444-472 [_to_dict_whatever_possible] *)
Definition s_to_dict_whatever_possible (n : nat) (cid : nat) (vals : dict) : res dict :=
  do dct <- s_possible_values n cid vals (comps E cid) [];
  let own := struct_keys vals in
  do first <- mapM (fun k => match dget dct k with
                             | Some v => Ok (k, v)
                             | None => do v <- struct_get E n cid vals k; Ok (k, v)
                             end) own;
  Ok (first ++ filter (fun kv => negb (struct_mem vals (fst kv))) dct).

(** structures.py:291-305 [recursive_to_dicts] and 401-442 [Struct.to_dict] *)
Fixpoint s_recursive_to_dicts (n : nat) (v : value) : res value :=
  match n with
  | O => OOF
  | S n' =>
    let to_dict := fun cid vals (keep : bool) =>
      do dct <- s_to_dict_whatever_possible n' cid vals;
      do upd <- missing_values (comps E cid) dct;
      let dct := dupdate dct upd in
      do dct <- (if keep then Ok dct else drop_discard (comps E cid) dct);
      mapM (fun kv => do v <- s_recursive_to_dicts n' (snd kv); Ok (fst kv, v)) dct in
    match v with
    | VStruct cid vals => do d <- to_dict cid vals false; Ok (VDict d)
    | VDict d =>
      do d' <- mapM (fun kv => do v <- s_recursive_to_dicts n' (snd kv); Ok (fst kv, v)) d;
      Ok (VDict d')
    | VList l => do l' <- mapM (s_recursive_to_dicts n') l; Ok (VList l')
    | v => Ok v
    end
  end.

Definition s_to_dict (n : nat) (cid : nat) (vals : dict) (keep_discardable : bool) : res dict :=
  do dct <- s_to_dict_whatever_possible n cid vals;
  do upd <- missing_values (comps E cid) dct;
  let dct := dupdate dct upd in
  do dct <- (if keep_discardable then Ok dct else drop_discard (comps E cid) dct);
  mapM (fun kv => do v <- s_recursive_to_dicts n (snd kv); Ok (fst kv, v)) dct.

(** structures.py:366-385 [Struct.to_stream] *)
Definition s_struct_to_stream_with (dd : dumper) (n : nat) (cid : nat) (vals : dict) (ctx : value) : dumped unit :=
  ddo _ <- dlift (validate_contents E n cid vals);
  ddo all_fields <- dlift (s_to_dict n cid vals false);
  dump_fields dd (comps E cid) ctx all_fields.

(** [_do_dump] of every field class: containers.py:239-298, 352-365, 466-485; numeric.py:437-473
    for dates.  (The length of a date that is the null value of a Timestamp without a size cannot
    be determined, as elsewhere; whether a warning comes first is not modelled.) *)
Fixpoint s_do_dump (n : nat) (f : field) (v ctx : value) (d : dict) : dumped unit :=
  match kind f with
  | KArray comp cnt _ =>
    match n with
    | O => ([], OOF)
    | S n' => array_dump (fun x => field_to_stream_with (s_do_dump n') comp x ctx d) (name_of f) cnt v d
    end
  | KNested cid =>
    match n with
    | O => ([], OOF)
    | S n' =>
      match v with
      | VStruct cid' vals => s_struct_to_stream_with (s_do_dump n') n' cid' vals ctx
      | VDict vals =>
        ddo vals <- dlift (struct_init E cid vals);
        s_struct_to_stream_with (s_do_dump n') n' cid vals ctx
      | _ => draise ETypeErr
      end
    end
  | KUnion choices _ dump_decider =>
    match n with
    | O => ([], OOF)
    | S n' =>
      ddo i <- dlift (dump_decider v ctx d);
      match nth_error choices i with
      | Some (CField g) => field_to_stream_with (s_do_dump n') g v ctx d
      | Some (CStruct cid) =>
        match v with
        | VDict vals =>
          ddo vals <- dlift (struct_init E cid vals);
          s_struct_to_stream_with (s_do_dump n') n' cid vals ctx
        | _ => draise ETypeErr
        end
      | None => draise ETypeErr
      end
    end
  | k => if zone_mismatch k v then draise deprecation
         else leaf_dump (conf f) k (get_expected_size_with (fun _ => draise ETypeErr) (conf f) k d) v
  end.

(** base.py:791-850 *)
Definition s_field_to_stream (n : nat) (f : field) (v ctx : value) (d : dict) : dumped unit :=
  field_to_stream_with (s_do_dump n) f v ctx d.

(** structures.py:366-399 *)
Definition s_struct_to_stream (n : nat) (cid : nat) (vals : dict) (ctx : value) : dumped unit :=
  s_struct_to_stream_with (s_do_dump n) n cid vals ctx.
End Warn.
