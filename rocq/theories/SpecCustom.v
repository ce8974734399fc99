(** Words for user-defined fields (C95). *)
From Verif Require Export SpecRound Custom.

(** An object, not None or a placeholder for one. *)
Definition object (v : value) : Prop := v <> VNone /\ v <> VUndefined /\ v <> VDefault.

(** The size the field must have. *)
Definition must_have (f : ufield) (d : dict) (size : Z) : Prop :=
  match c_size (u_conf f) with
  | SNone => False
  | SInt n => size = n
  | SRef name => dget d name = Some (VInt size)
  end.

(** What is written if [_do_dump] gave [bs]: the same, filled up if it is too short. *)
Definition sealed (f : ufield) (d : dict) (bs out : list Z) : Prop :=
  c_size (u_conf f) = SNone /\ out = bs
  \/ exists size, must_have f d size
     /\ (size = zlen bs /\ out = bs \/ zlen bs < size /\ u_pad f bs size = Ok out).

(** [_do_load] finds [w] wherever [v] was written, and stops at its end. *)
Definition undoes (f : ufield) (ctx : value) (d : dict) (ctx' : value) (dl : dict) (v w : value) : Prop :=
  forall bs out pre suf, u_dump f v ctx d = (bs, Ok tt) -> sealed f d bs out ->
    u_load f ctx' dl (at_data pre out suf) = (after_data pre out suf, Ok w).

Definition shows_up (f : ufield) (ctx : value) (dl : dict) (b : bool) : Prop :=
  forall s, run_dict dl (c_present (u_conf f) ctx (Some s)) = Ok b.

(** The field is dumped with value [v] (as seen by the struct), then loaded with value [w]. *)
Inductive restores (eqv : value -> value -> res bool) (f : ufield) (ctx : value) (d : dict) (ctx' : value) (dl : dict)
  : value -> value -> Prop :=
| restores_value v w : object v -> v <> VNotPresent -> undoes f ctx d ctx' dl v w -> shows_up f ctx' dl true ->
    accepts (u_conf f) w ->
    c_const (u_conf f) = VUndefined \/ eqv w (c_const (u_conf f)) = Ok true ->
    c_null (u_conf f) = VUndefined
    \/ (exists nr, u_null_repr f dl = Ok nr /\ forall bs out, u_dump f v ctx d = (bs, Ok tt) -> sealed f d bs out -> clash nr out)
       /\ eqv w (c_null (u_conf f)) = Ok false ->
    restores eqv f ctx d ctx' dl v w
| restores_null : c_null (u_conf f) <> VUndefined -> u_null_repr f dl = u_null_repr f d -> shows_up f ctx' dl true ->
    restores eqv f ctx d ctx' dl VNone VNone
| restores_absent : shows_up f ctx' dl false -> restores eqv f ctx d ctx' dl VNotPresent (c_npv (u_conf f)).

(** The same for the fields of a struct in turn: [dl] has been loaded before, [ws] is loaded. *)
Inductive all_restored (eqv : value -> value -> res bool) (ctx : value) (d : dict) (ctx' : value)
  : list (string * ufield) -> dict -> dict -> Prop :=
| all_restored_nil dl : all_restored eqv ctx d ctx' [] dl []
| all_restored_cons name f fs dl v w ws : ~ In name (dkeys dl) ->
    run_dict d (compute_value_for_dump (u_conf f) ctx) = Ok v -> restores eqv f ctx d ctx' dl v w ->
    all_restored eqv ctx d ctx' fs (dl ++ [(name, w)]) ws ->
    all_restored eqv ctx d ctx' ((name, f) :: fs) dl ((name, w) :: ws).

(** The number of elements is known when loading. *)
Definition count_known (cnt : countspec) (d : dict) (n : Z) : Prop :=
  match cnt with
  | CntInt m => n = m
  | CntRef name => dget d name = Some (VInt n)
  | _ => False
  end.

(** The size of its null value can be found without asking for the size of the field. *)
Definition plain_null (f : field) : Prop :=
  c_size (conf f) <> SNone \/ match kind f with KBytes | KString _ _ | KTime _ _ _ _ => False | _ => True end
  \/ match c_null (conf f) with VUndefined | VBytes _ | VDefault | VNone => True | _ => False end.

(** The library's own fields. *)
Definition builtins (E : env) (n : nat) (fs : list (string * field)) : list (string * ufield) :=
  map (fun nf => (fst nf, builtin E n (snd nf))) fs.
