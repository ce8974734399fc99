(** Model of writing to streams other than [io.BytesIO]: those whose [write] may raise an
    exception (a full disk, a closed pipe) or write only part of the data and return how much
    (raw files, sockets).  Dumping is a program of [write] calls; what [write] returns is
    ignored by the library. *)
From Verif Require Export StructModel.

Inductive wprog :=
| WDone (r : res unit)
| WWrite (bs : list Z) (k : wprog).                    (* stream.write(bs) *)

Fixpoint wthen (p : wprog) (k : wprog) : wprog :=
  match p with
  | WDone (Ok _) => k
  | WDone r => WDone r
  | WWrite bs p' => WWrite bs (wthen p' k)
  end.

Definition wtry {A} (r : res A) (k : A -> wprog) : wprog :=
  match r with Ok a => k a | Raise e => WDone (Raise e) | OOF => WDone OOF end.

(** A stream: of the [i]th [write], the given number of bytes is written, then the exception
    is raised if there is one. *)
Definition wdevice := nat -> list Z -> nat * option exn.

Fixpoint wrun (dev : wdevice) (p : wprog) (i : nat) : dumped unit :=
  match p with
  | WDone r => ([], r)
  | WWrite bs k =>
    match dev i bs with
    | (n, Some e) => (firstn n bs, Raise e)
    | (n, None) => let '(out, r) := wrun dev k (S i) in (firstn n bs ++ out, r)
    end
  end.

(** base.py:791-850 [Field.to_stream]; [_do_dump] writes into a buffer. *)
Definition w_to_stream_with (nr : res (list Z)) (dd : value -> dumped unit) (g : res Z)
    (c : fconf) (k : fkind) (data : value) : wprog :=
  wtry (if is_default data then default_of c else Ok data) (fun data =>
    if is_undefined data || is_default data then WDone (Raise (EMissingRequired (c_name c)))
    else wtry (run_validators (c_validators c) data) (fun _ =>
      if is_none data then wtry nr (fun bs => WWrite bs (WDone (Ok tt)))
      else
        let '(serialized_value, r) := dd data in
        wtry r (fun _ =>
          wtry (match c_size c with
                | SInt n => Ok n
                | SNone => Ok (zlen serialized_value)
                | SRef _ => g
                end) (fun expected_size =>
            let size_diff := zlen serialized_value - expected_size in
            if 0 <? size_diff then WDone (Raise (EValueSize (c_name c)))
            else if size_diff <? 0 then
              wtry (add_padding c k serialized_value expected_size) (fun padded => WWrite padded (WDone (Ok tt)))
            else WWrite serialized_value (WDone (Ok tt)))))).

Section Dumping.
Variable E : env.

(** base.py:791-850 *)
Definition w_field_to_stream (n : nat) (f : field) (v ctx : value) (d : dict) : wprog :=
  w_to_stream_with (null_repr (do_dump E n) f d) (fun v => do_dump E n f v ctx d) (ges (do_dump E n) f d) (conf f) (kind f) v.

(** structures.py:380-385 *)
Fixpoint w_dump_fields (n : nat) (fs : list (string * field)) (ctx : value) (d : dict) : wprog :=
  match fs with
  | [] => WDone (Ok tt)
  | (_, f) :: fs' =>
    wtry (run_dict d (compute_value_for_dump (conf f) ctx)) (fun v =>
      wthen (if is_not_present v then WDone (Ok tt) else w_field_to_stream n f v ctx d)
        (w_dump_fields n fs' ctx d))
  end.

(** structures.py:366-385 [Struct.to_stream] *)
Definition w_struct_to_stream (n : nat) (cid : nat) (vals : dict) (ctx : value) : wprog :=
  wtry (validate_contents E n cid vals) (fun _ =>
    wtry (to_dict E n cid vals false) (fun all_fields => w_dump_fields n (comps E cid) ctx all_fields)).

(** structures.py:681-716 [Struct.partial_dump] *)
Fixpoint w_partial_dump_fields (n : nat) (fs : list (string * field)) (vals : dict) (last_field : option string) (ctx : value) : wprog :=
  match fs with
  | [] => WDone (Ok tt)
  | (_, f) :: fs' =>
    wtry (default_of (conf f)) (fun dv =>
      let v := match dget vals (cname f) with Some v => v | None => dv end in
      if is_undefined v && match last_field with None => true | Some _ => false end
      then WDone (Ok tt)
      else if is_undefined v && (is_undefined (c_const (conf f)) && is_undefined dv)
      then WDone (Raise (EMissingRequired (name_of f)))
      else wthen (w_field_to_stream n f v ctx [])
             (if match last_field with Some l => String.eqb (cname f) l | None => false end
              then WDone (Ok tt)
              else w_partial_dump_fields n fs' vals last_field ctx))
  end.

Definition w_partial_dump (n : nat) (cid : nat) (vals : dict) (last_field : option string) (ctx : value) : wprog :=
  w_partial_dump_fields n (comps E cid) vals last_field ctx.
End Dumping.
