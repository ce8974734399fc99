(** Model of dumping when user callables that get [all_fields] - compute functions, [present]
    functions and dump deciders - write into it.  They get the dictionary itself, not a copy
    (structures.py:380-385, base.py:443-455, containers.py:474).  Callables that are called in
    [to_dict], or to find the bytes of None or a size, are taken not to write. *)
From Verif Require Export Scribbles.

(** The dictionary as each callable leaves it. *)
Record edits := Edits {
  ed_compute : fconf -> dict -> dict;
  ed_present : fconf -> value -> dict -> dict;
  ed_decide : fconf -> value -> value -> dict -> dict
}.

(** Dumping with a dictionary that changes: bytes written, dictionary afterwards, outcome. *)
Definition wdumped (A : Type) : Type := dict -> list Z * dict * res A.
Definition edlift {A} (r : res A) : wdumped A := fun d => ([], d, r).
Definition edbind {A B} (m : wdumped A) (k : A -> wdumped B) : wdumped B := fun d =>
  match m d with
  | (o1, d1, Ok a) => let '(o2, d2, r) := k a d1 in (o1 ++ o2, d2, r)
  | (o1, d1, Raise e) => (o1, d1, Raise e)
  | (o1, d1, OOF) => (o1, d1, OOF)
  end.
(** Dumping that does not touch the dictionary. *)
Definition edump {A} (m : dict -> dumped A) : wdumped A := fun d => let '(o, r) := m d in (o, d, r).

Notation "'edo' x <- m ; k" := (edbind m (fun x => k)) (at level 200, x binder, m at level 100, k at level 200).

Definition wdumper := field -> value -> value -> wdumped unit.

Section Model.
Variable E : env.
Variable W : edits.

(** base.py:438-447: the compute function is called for a field without a value and a default. *)
Definition computes (c : fconf) (d : dict) : bool :=
  match c_compute c with
  | Some _ => is_undefined (c_default c) && match c_name c with Some n => negb (dmem d n) | None => true end
  | None => false
  end.

(** base.py:400-460 [compute_value_for_dump] *)
Definition e_compute_value (c : fconf) (ctx : value) : wdumped value :=
  edo v <- (fun d => ([], if computes c d then ed_compute W c d else d, run_dict d (stored_or_fallback c)));
  if is_not_present v then edlift (Ok VNotPresent)
  else
    edo p <- (fun d => ([], ed_present W c ctx d, run_dict d (c_present c ctx None)));
    if negb p then edlift (Ok VNotPresent)
    else if is_undefined v then edlift (Raise (EMissingRequired (c_name c)))
    else edlift (Ok v).

(** base.py:791-850 [Field.to_stream]: the size is looked up after [_do_dump]. *)
Definition e_to_stream_with (nr : dict -> res (list Z)) (dd : value -> wdumped unit) (g : dict -> res Z)
    (c : fconf) (k : fkind) (data : value) : wdumped unit :=
  edo data <- edlift (if is_default data then default_of c else Ok data);
  if is_undefined data || is_default data then edlift (Raise (EMissingRequired (c_name c)))
  else
    edo _ <- edlift (run_validators (c_validators c) data);
    if is_none data then edump (fun d => ddo bs <- dlift (nr d); dwrite bs)
    else fun d =>
      let '(serialized_value, d1, r) := dd data d in
      (edo _ <- edlift r;
       edump (fun d =>
         ddo expected_size <- dlift (match c_size c with
                                     | SInt n => Ok n
                                     | SNone => Ok (zlen serialized_value)
                                     | SRef _ => g d
                                     end);
         let size_diff := zlen serialized_value - expected_size in
         if 0 <? size_diff then draise (EValueSize (c_name c))
         else if size_diff <? 0 then
           ddo padded <- dlift (add_padding c k serialized_value expected_size);
           dwrite padded
         else dwrite serialized_value)) d1.

(** base.py:791-850 *)
Definition e_field_to_stream_with (dd : wdumper) (n : nat) (f : field) (v ctx : value) : wdumped unit :=
  e_to_stream_with (null_repr (do_dump E n) f) (fun v => dd f v ctx) (ges (do_dump E n) f) (conf f) (kind f) v.

(** structures.py:382-385 *)
Fixpoint e_dump_fields (dd : wdumper) (n : nat) (fs : list (string * field)) (ctx : value) : wdumped unit :=
  match fs with
  | [] => edlift (Ok tt)
  | (_, f) :: fs' =>
    edo v <- e_compute_value (conf f) ctx;
    edo _ <- (if is_not_present v then edlift (Ok tt) else e_field_to_stream_with dd n f v ctx);
    e_dump_fields dd n fs' ctx
  end.

(** structures.py:366-385 [Struct.to_stream]: a dictionary of its own. *)
Definition e_struct_to_stream_with (dd : wdumper) (n : nat) (cid : nat) (vals : dict) (ctx : value) : dumped unit :=
  ddo _ <- dlift (validate_contents E n cid vals);
  ddo all_fields <- dlift (to_dict E n cid vals false);
  let '(out, _, r) := e_dump_fields dd n (comps E cid) ctx all_fields in (out, r).

(** containers.py:269-270 *)
Fixpoint e_dump_items (dump1 : value -> wdumped unit) (l : list value) : wdumped unit :=
  match l with
  | [] => edlift (Ok tt)
  | v :: l' => edo _ <- dump1 v; e_dump_items dump1 l'
  end.

(** containers.py:281-298 [_dump_unsized] *)
Fixpoint e_dump_unsized (dump1 : value -> wdumped unit) (name : fname) (n_elems : option count)
    (n_written : Z) (l : list value) : wdumped unit :=
  match l with
  | [] =>
    match n_elems with
    | Some c =>
      edo short <- edlift (count_above c n_written);
      if short then edlift (Raise (array_size_error name c n_written)) else edlift (Ok tt)
    | None => edlift (Ok tt)
    end
  | v :: l' =>
    if match n_elems with Some c => count_is c n_written | None => false end
    then edlift (Raise (match n_elems with
                        | Some c => array_size_error name c (n_written + 1)
                        | None => ETypeErr (* not reached *)
                        end))
    else edo _ <- dump1 v; e_dump_unsized dump1 name n_elems (n_written + 1) l'
  end.

(** containers.py:239-270 [Array._do_dump]: the count is looked up once, at the beginning. *)
Definition e_array_dump (dump1 : value -> wdumped unit) (name : fname) (cnt : countspec) (v : value) : wdumped unit := fun d =>
  (edo n_elems <- edlift (get_final_element_count cnt d);
   match sized_items v with
   | Some l =>
     match n_elems with
     | Some c =>
       if negb (count_is c (zlen l)) then edlift (Raise (array_size_error name c (zlen l)))
       else e_dump_items dump1 l
     | None => e_dump_items dump1 l
     end
   | None =>
     match v with
     | VGen l => e_dump_unsized dump1 name n_elems 0 l
     | _ => edlift (Raise ETypeErr)
     end
   end) d.

(** [_do_dump] of every field class; containers.py:239-270, 352-365, 466-485. *)
Fixpoint e_do_dump (n : nat) (f : field) (v ctx : value) : wdumped unit :=
  match kind f with
  | KArray comp cnt _ =>
    match n with
    | O => edlift OOF
    | S n' => e_array_dump (fun x => e_field_to_stream_with (e_do_dump n') n' comp x ctx) (name_of f) cnt v
    end
  | KNested cid =>
    match n with
    | O => edlift OOF
    | S n' =>
      edump (fun _ =>
        match v with
        | VStruct cid' vals => e_struct_to_stream_with (e_do_dump n') n' cid' vals ctx
        | VDict vals =>
          ddo vals <- dlift (struct_init E cid vals);
          e_struct_to_stream_with (e_do_dump n') n' cid vals ctx
        | _ => draise ETypeErr
        end)
    end
  | KUnion choices _ dump_decider =>
    match n with
    | O => edlift OOF
    | S n' =>
      edo i <- (fun d => ([], ed_decide W (conf f) v ctx d, dump_decider v ctx d));
      match nth_error choices i with
      | Some (CField g) => e_field_to_stream_with (e_do_dump n') n' g v ctx
      | Some (CStruct cid) =>
        edump (fun _ =>
          match v with
          | VDict vals =>
            ddo vals <- dlift (struct_init E cid vals);
            e_struct_to_stream_with (e_do_dump n') n' cid vals ctx
          | _ => draise ETypeErr
          end)
      | None => edlift (Raise ETypeErr)
      end
    end
  | k => edump (fun d => leaf_dump (conf f) k (get_expected_size_with (fun _ => draise ETypeErr) (conf f) k d) v)
  end.

(** base.py:791-850, structures.py:366-385 *)
Definition e_field_to_stream (n : nat) (f : field) (v ctx : value) : wdumped unit :=
  e_field_to_stream_with (e_do_dump n) n f v ctx.
Definition e_struct_to_stream (n : nat) (cid : nat) (vals : dict) (ctx : value) : dumped unit :=
  e_struct_to_stream_with (e_do_dump n) n cid vals ctx.

End Model.
