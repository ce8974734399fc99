(** Model of dumping a struct whose computing functions, [present] functions and factories need
    not answer the same when called again: random numbers, clocks, counters.  Callables of
    nested structs, and all validators, are taken to be pure as elsewhere. *)
From Verif Require Export StructModel.

(** Computations that take time: how many calls have been made so far.  (Monad plumbing, no
    counterpart in the code.) *)
Definition timed (A : Type) := nat -> nat * res A.
Definition tret {A} (r : res A) : timed A := fun t => (t, r).
Definition tbind {A B} (m : timed A) (k : A -> timed B) : timed B := fun t =>
  match m t with
  | (t', Ok a) => k a t'
  | (t', Raise e) => (t', Raise e)
  | (t', OOF) => (t', OOF)
  end.
Notation "'tdo' x <- m ; k" := (tbind m (fun x => k)) (at level 200, x name, m at level 100, k at level 200, right associativity).

(** A user callable applied to a mapping, reading which may call others (base.py:429-449). *)
Fixpoint t_run_q {A} (mem : string -> bool) (get : string -> timed value) (keys : list string) (q : query A) : timed A :=
  match q with
  | QRet a => tret (Ok a)
  | QRaise e => tret (Raise e)
  | QIn n k => t_run_q mem get keys (k (mem n))
  | QGet n k => fun t =>
    match get n t with
    | (t', Ok v) => t_run_q mem get keys (k (inl v)) t'
    | (t', Raise e) => t_run_q mem get keys (k (inr e)) t'
    | (t', OOF) => (t', OOF)
    end
  | QKeys k => t_run_q mem get keys (k keys)
  end.

Section Moods.
Variable E : env.
(** The field as it is at a time: only its callables may differ. *)
Variable mood : nat -> fconf -> fconf.

(** One call of a callable of the field [c], as it is now. *)
Definition call {A} (run : query A -> timed A) (c : fconf) (q : fconf -> query A) : timed A :=
  fun t => run (q (mood t c)) (S t).

(** base.py:400-460 [compute_value_for_dump] on a mapping *)
Definition t_compute_value (runv : query value -> timed value) (runb : query bool -> timed bool) (c : fconf) (ctx : value) : timed value :=
  tdo v <- call runv c stored_or_fallback;
  if is_not_present v then tret (Ok VNotPresent)
  else tdo p <- call runb c (fun c => c_present c ctx None);
       if negb p then tret (Ok VNotPresent)
       else if is_undefined v then tret (Raise (EMissingRequired (c_name c)))
       else tret (Ok v).

(** structures.py:735-740 + base.py:1015-1020 *)
Fixpoint t_struct_get (n : nat) (cid : nat) (vals : dict) (name : string) : timed value :=
  match assoc (comps E cid) name with
  | None => tret (Raise (EKeyErr name))
  | Some f =>
    match oget vals (name_of f) with
    | Some v => tret (Ok v)
    | None =>
      match n with
      | O => tret OOF
      | S n' => t_compute_value (t_run_q (struct_mem vals) (t_struct_get n' cid vals) (struct_keys vals))
                  (t_run_q (struct_mem vals) (t_struct_get n' cid vals) (struct_keys vals)) (conf f) VNone
      end
    end
  end.

(** A user callable applied to the struct: structures.py:735-750. *)
Definition t_run_struct {A} (n : nat) (cid : nat) (vals : dict) (q : query A) : timed A :=
  t_run_q (struct_mem vals) (t_struct_get n cid vals) (struct_keys vals) q.

(** structures.py:352-360 *)
Fixpoint t_run_method_validators (n : nat) (cid : nat) (vals : dict) (vs : list (value -> query unit)) (v : value) : timed unit :=
  match vs with
  | [] => tret (Ok tt)
  | q :: vs' => tdo _ <- t_run_struct n cid vals (q v); t_run_method_validators n cid vals vs' v
  end.

(** structures.py:349-360 *)
Fixpoint t_validate_fields (n : nat) (cid : nat) (vals : dict) (fvs : list (string * list (value -> query unit))) : timed unit :=
  match fvs with
  | [] => tret (Ok tt)
  | (f_name, vs) :: fvs' =>
    match assoc (comps E cid) f_name with
    | None => tret (Raise (EKeyErr f_name))
    | Some f =>
      tdo v <- t_struct_get n cid vals f_name;
      tdo _ <- tret (run_validators (c_validators (conf f)) v);
      tdo _ <- t_run_method_validators n cid vals vs v;
      t_validate_fields n cid vals fvs'
    end
  end.

(** structures.py:362-364 *)
Fixpoint t_run_struct_validators (n : nat) (cid : nat) (vals : dict) (vs : list (query unit)) : timed unit :=
  match vs with
  | [] => tret (Ok tt)
  | q :: vs' => tdo _ <- t_run_struct n cid vals q; t_run_struct_validators n cid vals vs'
  end.

(** structures.py:342-364 [validate_contents] *)
Definition t_validate_contents (n : nat) (cid : nat) (vals : dict) : timed unit :=
  tdo _ <- t_validate_fields n cid vals (k_fvals (cls E cid));
  t_run_struct_validators n cid vals (k_svals (cls E cid)).

(** structures.py:453-470 *)
Fixpoint t_possible_values (n : nat) (cid : nat) (vals : dict) (fs : list (string * field)) (dct : dict) : timed dict :=
  match fs with
  | [] => tret (Ok dct)
  | (_, f) :: fs' => fun t =>
    match t_compute_value (t_run_struct n cid vals) (t_run_struct n cid vals) (conf f) VNone t with
    | (t', Ok v) => t_possible_values n cid vals fs' (dset dct (cname f) v) t'
    | (t', Raise e) => if is_binobj_Error e then t_possible_values n cid vals fs' dct t' else (t', Raise e)
    | (t', OOF) => (t', OOF)
    end
  end.

(** A comprehension. *)
Fixpoint t_map {A B} (k : A -> timed B) (l : list A) : timed (list B) :=
  match l with
  | [] => tret (Ok [])
  | x :: l' => tdo y <- k x; tdo ys <- t_map k l'; tret (Ok (y :: ys))
  end.

(** structures.py:444-472 [_to_dict_whatever_possible] *)
Definition t_to_dict_whatever_possible (n : nat) (cid : nat) (vals : dict) : timed dict :=
  tdo dct <- t_possible_values n cid vals (comps E cid) [];
  tdo first <- t_map (fun k => match dget dct k with
                               | Some v => tret (Ok (k, v))
                               | None => tdo v <- t_struct_get n cid vals k; tret (Ok (k, v))
                               end) (struct_keys vals);
  tret (Ok (first ++ filter (fun kv => negb (struct_mem vals (fst kv))) dct)).

(** A user callable applied to a dictionary: structures.py:380-385, 428-434. *)
Definition t_run_dict {A} (d : dict) (q : query A) : timed A :=
  t_run_q (dmem d) (fun name => tret (dget_res d name)) (dkeys d) q.

(** structures.py:428-434 *)
Definition t_missing_values (fs : list (string * field)) (dct : dict) : timed dict :=
  t_map (fun nf => tdo v <- t_compute_value (t_run_dict dct) (t_run_dict dct) (conf (snd nf)) VNone;
                   tret (Ok (cname (snd nf), v)))
    (filter (fun nf => negb (dmem dct (cname (snd nf)))) fs).

(** structures.py:401-442 [Struct.to_dict] *)
Definition t_to_dict (n : nat) (cid : nat) (vals : dict) (keep_discardable : bool) : timed dict :=
  tdo dct <- t_to_dict_whatever_possible n cid vals;
  tdo upd <- t_missing_values (comps E cid) dct;
  tdo dct <- tret (if keep_discardable then Ok (dupdate dct upd) else drop_discard (comps E cid) (dupdate dct upd));
  tret (dicts_of E n dct).

(** structures.py:380-385 *)
Fixpoint t_dump_fields (n : nat) (fs : list (string * field)) (ctx : value) (d : dict) (t : nat) : dumped unit :=
  match fs with
  | [] => dret tt
  | (_, f) :: fs' =>
    let '(t', r) := t_compute_value (t_run_dict d) (t_run_dict d) (conf f) ctx t in
    ddo v <- dlift r;
    ddo _ <- (if is_not_present v then dret tt else field_to_stream E n f v ctx d);
    t_dump_fields n fs' ctx d t'
  end.

(** structures.py:366-385 [Struct.to_stream] *)
Definition t_struct_to_stream (n : nat) (cid : nat) (vals : dict) (ctx : value) (t : nat) : dumped unit :=
  let '(t', r) := (tdo _ <- t_validate_contents n cid vals; t_to_dict n cid vals false) t in
  ddo all_fields <- dlift r;
  t_dump_fields n (comps E cid) ctx all_fields t'.
End Moods.
