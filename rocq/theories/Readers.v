(** Model of loading when user callables that get the stream - [present] functions, halt checks and
    load deciders - read from it or seek in it. *)
From Verif Require Export StructModel.

(** Where each callable leaves the stream; they see what they are given in the code (base.py:681,
    containers.py:318, 493). *)
Record moves := Moves {
  mv_present : fconf -> value -> dict -> stream -> stream;
  mv_halt : fconf -> list value -> value -> dict -> stream -> stream;
  mv_decide : fconf -> value -> dict -> stream -> stream
}.

Section Model.
Variable E : env.
Variable M : moves.

(** The field of which [present] says yes. *)
Definition there (c : fconf) : fconf :=
  mkConf (c_name c) (c_const c) (c_default c) (c_factory c) (c_discard c) (c_null c) (c_size c)
         (c_validators c) (fun _ _ => QRet true) (c_npv c) (c_compute c) (c_index c) (c_offset c).

(** base.py:681-732: what follows the call of [present] begins where that has left the stream. *)
Definition r_from_stream_with (nr : res (list Z)) (dl : loader value) (eqv : value -> value -> res bool)
    (c : fconf) (ctx : value) (d : dict) : loader value := fun s =>
  let moved := mv_present M c ctx d s in
  match run_dict d (c_present c ctx (Some s)) with
  | Ok false => (moved, Ok (c_npv c))
  | Ok true => from_stream_with nr dl eqv (there c) ctx d moved
  | Raise e => (moved, Raise e)
  | OOF => (moved, OOF)
  end.

(** base.py:658-732 *)
Definition r_field_from_stream_with (dl : floader) (n : nat) (f : field) (ctx : value) (d : dict) : loader value :=
  r_from_stream_with (null_repr (do_dump E n) f d) (dl f ctx d) (py_eq E n) (conf f) ctx d.

(** structures.py:504-507 *)
Fixpoint r_load_fields (dl : floader) (n : nat) (fs : list (string * field)) (ctx : value) (results : dict) : loader dict :=
  match fs with
  | [] => lret results
  | (name, f) :: fs' =>
    ldo v <- r_field_from_stream_with dl n f ctx results;
    r_load_fields dl n fs' ctx (if dmem results name then results else results ++ [(name, v)])
  end.

(** structures.py:474-517 [Struct.from_stream] *)
Definition r_struct_from_stream_with (dl : floader) (n : nat) (cid : nat) (ctx : value) (init_kwargs : dict) : loader dict :=
  ldo results <- r_load_fields dl n (comps E cid) ctx init_kwargs;
  ldo vals <- llift (struct_init E cid results);
  ldo _ <- llift (validate_contents E n cid vals);
  lret (delete_discard (comps E cid) vals).

(** containers.py:317-324: each element is read from where the halt check has left the stream. *)
Fixpoint r_array_load (fuel : nat) (halt : stream -> list value -> res (bool * list value)) (moved : list value -> stream -> stream)
    (load1 : loader value) (values : list value) : loader value := fun s =>
  match fuel with
  | O => (s, OOF)
  | S fuel' =>
    let s1 := moved values s in
    match halt s values with
    | Ok (true, values) => (s1, Ok (VList values))
    | Ok (false, values) =>
      match load1 s1 with
      | (s', Ok v) => r_array_load fuel' halt moved load1 (if is_not_present v then values else values ++ [v]) s'
      | (s', Raise e) => (s', Raise e)
      | (s', OOF) => (s', OOF)
      end
    | Raise e => (s1, Raise e)
    | OOF => (s1, OOF)
    end
  end.

(** containers.py:233-237: the default halt check puts the stream back. *)
Definition halt_moves (halt : option haltfn) (c : fconf) (ctx : value) (d : dict) (values : list value) (s : stream) : stream :=
  match halt with Some _ => mv_halt M c values ctx d s | None => s end.

(** [_do_load] of every field class; containers.py:300-324, 367-371, 487-501. *)
Fixpoint r_do_load (n : nat) (f : field) (ctx : value) (d : dict) : loader value :=
  match kind f with
  | KArray comp cnt halt =>
    match n with
    | O => fun s => (s, OOF)
    | S n' => r_array_load n' (array_halt cnt halt (name_of f) ctx d) (halt_moves halt (conf f) ctx d)
                (r_field_from_stream_with (r_do_load n') n' comp ctx d) []
    end
  | KNested cid =>
    match n with
    | O => fun s => (s, OOF)
    | S n' => ldo vals <- r_struct_from_stream_with (r_do_load n') n' cid ctx []; lret (VStruct cid vals)
    end
  | KUnion choices load_decider _ =>
    match n with
    | O => fun s => (s, OOF)
    | S n' => fun s =>
      let s1 := mv_decide M (conf f) ctx d s in
      match load_decider s ctx d with
      | Ok i =>
        match nth_error choices i with
        | Some (CField g) => r_do_load n' g ctx d s1
        | Some (CStruct cid) => (ldo vals <- r_struct_from_stream_with (r_do_load n') n' cid ctx []; lret (VStruct cid vals)) s1
        | None => (s1, Raise ETypeErr)
        end
      | Raise e => (s1, Raise e)
      | OOF => (s1, OOF)
      end
    end
  | k => leaf_load (conf f) k
           (get_expected_size_with (fun v => do_dump E n f v VNone d) (conf f) k d)
           (get_expected_size_with (fun v => do_dump E n f v VNone []) (conf f) k [])
  end.

(** base.py:658-732, structures.py:474-517 *)
Definition r_field_from_stream (n : nat) (f : field) (ctx : value) (d : dict) : loader value :=
  r_field_from_stream_with (r_do_load n) n f ctx d.
Definition r_struct_from_stream (n : nat) (cid : nat) (ctx : value) (init_kwargs : dict) : loader dict :=
  r_struct_from_stream_with (r_do_load n) n cid ctx init_kwargs.

End Model.
