(** Model of loading when user callables that get [loaded_fields] - [present] functions, halt checks
    and load deciders - write into it.  They get the dictionary itself, not a copy (structures.py:508,
    base.py:681, containers.py:318, 493).  Callables that dump a null value on the way
    (base.py:945-951) are taken not to write. *)
From Verif Require Export Readers.

(** The dictionary as each callable leaves it. *)
Record scribbles := Scribbles {
  sb_present : fconf -> value -> dict -> stream -> dict;
  sb_halt : fconf -> list value -> value -> dict -> stream -> dict;
  sb_decide : fconf -> value -> dict -> stream -> dict
}.

(** Loading with a dictionary that changes: stream and dictionary afterwards, and the outcome. *)
Definition wloader (A : Type) : Type := dict -> stream -> stream * dict * res A.
Definition wret {A} (a : A) : wloader A := fun d s => (s, d, Ok a).
Definition wlift {A} (r : res A) : wloader A := fun d s => (s, d, r).
Definition wbind {A B} (m : wloader A) (k : A -> wloader B) : wloader B := fun d s =>
  match m d s with
  | (s', d', Ok a) => k a d' s'
  | (s', d', Raise e) => (s', d', Raise e)
  | (s', d', OOF) => (s', d', OOF)
  end.
(** Loading that does not touch the dictionary. *)
Definition wread {A} (m : dict -> loader A) : wloader A := fun d s => let '(s', r) := m d s in (s', d, r).

Notation "'wdo' x <- m ; k" := (wbind m (fun x => k)) (at level 200, x binder, m at level 100, k at level 200).

Definition wfloader := field -> value -> wloader value.

Section Model.
Variable E : env.
Variable W : scribbles.

(** base.py:710-730: the value loaded becomes None if it is the null value, and is checked. *)
Definition w_load_value (dl : wloader value) (eqv : value -> value -> res bool) (c : fconf) : wloader value :=
  wdo v <- (fun d s => match dl d s with
                       | (s', d', Raise e) => (s', d', Raise (set_field (c_name c) e))
                       | x => x
                       end);
  wdo v <- wlift (if allow_null c then do b <- eqv v (c_null c); Ok (if b then VNone else v) else Ok v);
  wdo _ <- wlift (if negb (is_undefined (c_const c)) then
                    do b <- eqv v (c_const c); if b then Ok tt else Raise (EValidation (c_name c))
                  else Ok tt);
  wdo _ <- wlift (run_validators (c_validators c) v);
  wret v.

(** base.py:681-732: [present] is asked first; everything else sees what it has written. *)
Definition w_from_stream_with (nr : dict -> res (list Z)) (dl : wloader value) (eqv : value -> value -> res bool)
    (c : fconf) (ctx : value) : wloader value := fun d0 s =>
  let d := sb_present W c ctx d0 s in
  match run_dict d0 (c_present c ctx (Some s)) with
  | Ok false => (s, d, Ok (c_npv c))
  | Ok true =>
    if allow_null c then
      match nr d with
      | Ok null_repr =>
        match peek_bytes (zlen null_repr) true s with
        | (s1, Ok potential_null_bytes) =>
          if bytes_eqb potential_null_bytes null_repr then
            (wdo _ <- wlift (run_validators (c_validators c) VNone); wret VNone) d (advance s1 (length null_repr))
          else w_load_value dl eqv c d s1
        | (s1, Raise e) => (s1, d, Raise e)
        | (s1, OOF) => (s1, d, OOF)
        end
      | Raise e =>
        if is_UnserializableValueError e then
          if is_default (c_null c) then (s, d, Raise (ECannotDetermineNull (c_name c)))
          else w_load_value dl eqv c d s
        else (s, d, Raise e)
      | OOF => (s, d, OOF)
      end
    else w_load_value dl eqv c d s
  | Raise e => (s, d, Raise e)
  | OOF => (s, d, OOF)
  end.

(** base.py:658-732 *)
Definition w_field_from_stream_with (dl : wfloader) (n : nat) (f : field) (ctx : value) : wloader value :=
  w_from_stream_with (null_repr (do_dump E n) f) (dl f ctx) (py_eq E n) (conf f) ctx.

(** structures.py:505-508: [results.setdefault(name, field.from_stream(stream, context, results))];
    the field is loaded before [setdefault] looks for the name. *)
Fixpoint w_load_fields (dl : wfloader) (n : nat) (fs : list (string * field)) (ctx : value) : wloader unit :=
  match fs with
  | [] => wret tt
  | (name, f) :: fs' =>
    wdo v <- w_field_from_stream_with dl n f ctx;
    wdo _ <- (fun d s => (s, if dmem d name then d else d ++ [(name, v)], Ok tt));
    w_load_fields dl n fs' ctx
  end.

(** structures.py:474-517 [Struct.from_stream]: a dictionary of its own. *)
Definition w_struct_from_stream_with (dl : wfloader) (n : nat) (cid : nat) (ctx : value) (init_kwargs : dict) : loader dict := fun s =>
  match w_load_fields dl n (comps E cid) ctx init_kwargs s with
  | (s', results, Ok _) =>
    (ldo vals <- llift (struct_init E cid results);
     ldo _ <- llift (validate_contents E n cid vals);
     lret (delete_discard (comps E cid) vals)) s'
  | (s', _, Raise e) => (s', Raise e)
  | (s', _, OOF) => (s', OOF)
  end.

(** containers.py:233-237: the default halt check does not write. *)
Definition halt_scribbles (halt : option haltfn) (c : fconf) (ctx : value) (values : list value) (d : dict) (s : stream) : dict :=
  match halt with Some _ => sb_halt W c values ctx d s | None => d end.

(** containers.py:317-324: the count is looked up again before each element. *)
Fixpoint w_array_load (fuel : nat) (halt : dict -> stream -> list value -> res (bool * list value))
    (left : list value -> dict -> stream -> dict) (load1 : wloader value) (values : list value) : wloader value := fun d0 s =>
  match fuel with
  | O => (s, d0, OOF)
  | S fuel' =>
    let d := left values d0 s in
    match halt d0 s values with
    | Ok (true, values) => (s, d, Ok (VList values))
    | Ok (false, values) =>
      (wdo v <- load1; w_array_load fuel' halt left load1 (if is_not_present v then values else values ++ [v])) d s
    | Raise e => (s, d, Raise e)
    | OOF => (s, d, OOF)
    end
  end.

(** [_do_load] of every field class; containers.py:300-324, 367-371, 487-501. *)
Fixpoint w_do_load (n : nat) (f : field) (ctx : value) : wloader value :=
  match kind f with
  | KArray comp cnt halt =>
    match n with
    | O => wlift OOF
    | S n' => w_array_load n' (array_halt cnt halt (name_of f) ctx) (halt_scribbles halt (conf f) ctx)
                (w_field_from_stream_with (w_do_load n') n' comp ctx) []
    end
  | KNested cid =>
    match n with
    | O => wlift OOF
    | S n' => wread (fun _ => ldo vals <- w_struct_from_stream_with (w_do_load n') n' cid ctx []; lret (VStruct cid vals))
    end
  | KUnion choices load_decider _ =>
    match n with
    | O => wlift OOF
    | S n' => fun d0 s =>
      let d := sb_decide W (conf f) ctx d0 s in
      match load_decider s ctx d0 with
      | Ok i =>
        match nth_error choices i with
        | Some (CField g) => w_do_load n' g ctx d s
        | Some (CStruct cid) =>
          wread (fun _ => ldo vals <- w_struct_from_stream_with (w_do_load n') n' cid ctx []; lret (VStruct cid vals)) d s
        | None => (s, d, Raise ETypeErr)
        end
      | Raise e => (s, d, Raise e)
      | OOF => (s, d, OOF)
      end
    end
  | k => wread (fun d => leaf_load (conf f) k
           (get_expected_size_with (fun v => do_dump E n f v VNone d) (conf f) k d)
           (get_expected_size_with (fun v => do_dump E n f v VNone []) (conf f) k []))
  end.

(** base.py:658-732, structures.py:474-517 *)
Definition w_field_from_stream (n : nat) (f : field) (ctx : value) : wloader value :=
  w_field_from_stream_with (w_do_load n) n f ctx.
Definition w_struct_from_stream (n : nat) (cid : nat) (ctx : value) (init_kwargs : dict) : loader dict :=
  w_struct_from_stream_with (w_do_load n) n cid ctx init_kwargs.

End Model.
