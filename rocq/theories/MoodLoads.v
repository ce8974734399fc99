(** Model of loading a struct whose [present] functions need not answer the same when called again.  As
    in Moods.v, the callables of nested structs, and halt checks, deciders and validators, are taken to be
    pure; the clock counts the calls. *)
From Verif Require Export Moods.

(** The field with the [present] function it has at a time. *)
Definition at_time (mood : nat -> fconf -> fconf) (t : nat) (f : field) : field :=
  let c := conf f in
  Field (mkConf (c_name c) (c_const c) (c_default c) (c_factory c) (c_discard c) (c_null c) (c_size c)
           (c_validators c) (c_present (mood t c)) (c_npv c) (c_compute c) (c_index c) (c_offset c)) (kind f).

Section MoodLoads.
Variable E : env.
Variable mood : nat -> fconf -> fconf.

(** base.py:658-732 [Field.from_stream]: [present] is called once, at the beginning (681-682). *)
Definition t_field_from_stream (n : nat) (f : field) (ctx : value) (d : dict) (t : nat) (s : stream) : nat * (stream * res value) :=
  (S t, field_from_stream E n (at_time mood t f) ctx d s).

(** structures.py:504-507 *)
Fixpoint t_load_fields (n : nat) (fs : list (string * field)) (ctx : value) (results : dict) (t : nat) (s : stream) : nat * (stream * res dict) :=
  match fs with
  | [] => (t, (s, Ok results))
  | (name, f) :: fs' =>
    match t_field_from_stream n f ctx results t s with
    | (t', (s', Ok v)) => t_load_fields n fs' ctx (if dmem results name then results else results ++ [(name, v)]) t' s'
    | (t', (s', Raise e)) => (t', (s', Raise e))
    | (t', (s', OOF)) => (t', (s', OOF))
    end
  end.

(** structures.py:474-517 [Struct.from_stream] *)
Definition t_struct_from_stream (n : nat) (cid : nat) (ctx : value) (init_kwargs : dict) (t : nat) (s : stream) : nat * (stream * res dict) :=
  match t_load_fields n (comps E cid) ctx init_kwargs t s with
  | (t', (s', Ok results)) =>
    match struct_init E cid results with
    | Ok vals =>
      match t_validate_contents E mood n cid vals t' with
      | (t2, Ok _) => (t2, (s', Ok (delete_discard (comps E cid) vals)))
      | (t2, Raise e) => (t2, (s', Raise e))
      | (t2, OOF) => (t2, (s', OOF))
      end
    | Raise e => (t', (s', Raise e))
    | OOF => (t', (s', OOF))
    end
  | x => x
  end.

(** structures.py:599-622: the loop of [partial_load] *)
Fixpoint t_partial_load_fields (n : nat) (fs : list (string * field)) (last_field : option string) (ctx : value) (result : dict)
    (t : nat) (s : stream) : nat * (stream * res dict) :=
  match fs with
  | [] => (t, (s, Ok result))
  | (_, f) :: fs' =>
    let offset := s_pos s in
    match t_field_from_stream n f ctx result t s with
    | (t', (s', Ok v)) =>
      let result := if c_discard (conf f) then result else dset result (cname f) v in
      if match last_field with Some l => String.eqb (cname f) l | None => false end
      then (t', (s', Ok result))
      else t_partial_load_fields n fs' last_field ctx result t' s'
    | (t', (s', Raise e)) =>
      if is_UnexpectedEOFError e then
        match last_field with
        | Some _ => (t', (s', Raise e))
        | None => (t', (mkStream (s_data s') offset, Ok result))
        end
      else (t', (s', Raise e))
    | (t', (s', OOF)) => (t', (s', OOF))
    end
  end.

(** structures.py:561-624 [partial_load] *)
Definition t_partial_load (n : nat) (cid : nat) (last_field : option string) (ctx : value) (t : nat) (s : stream) : nat * (stream * res dict) :=
  if match last_field with
     | Some l => match assoc (comps E cid) l with Some _ => false | None => true end
     | None => false
     end
  then (t, (s, Raise EValueErr))
  else
    match t_partial_load_fields n (comps E cid) last_field ctx [] t s with
    | (t', (s', Ok result)) => (t', (s', struct_init E cid result))
    | x => x
    end.
End MoodLoads.
