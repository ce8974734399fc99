(** Property theorems: mapping proxies of structs (C65).
    Vocabulary: SpecField.v ([instance_of], [assignable]), SpecEq.v ([set_values], [view],
    [comparable], [same]) and [wraps] at the head of ProxyProofs.v. *)
From Verif Require Import ProxyProofs Samples AccessWitness.

(** C65: names that are set behave as in a dict ... *)
Theorem C65_set_names : forall E n cid vals name v dflt odflt,
  instance_of E cid vals -> dget vals name = Some v ->
  proxy_get E n cid vals name dflt = Ok v /\ proxy_contains E n cid vals name = Ok true
  /\ proxy_setdefault E n cid vals name dflt = (vals, Ok v)
  /\ exists vals', proxy_pop E n cid vals name odflt = (vals', Ok v)
     /\ forall x, dget vals' x = if String.eqb x name then None else dget vals x.
Proof. exact proxy_stored. Qed.
Print Assumptions C65_set_names.

(** ... and so do unknown names, except that they cannot be added. *)
Theorem C65_unknown_names : forall E n cid vals name dflt,
  ~ In name (map fst (k_comps (cls E cid))) ->
  proxy_get E n cid vals name dflt = Ok dflt /\ proxy_contains E n cid vals name = Ok false
  /\ proxy_setdefault E n cid vals name dflt = (vals, Raise (EKeyErr name))
  /\ proxy_pop E n cid vals name (Some dflt) = (vals, Ok dflt)
  /\ proxy_pop E n cid vals name None = (vals, Raise (EKeyErr name)).
Proof. exact proxy_unknown. Qed.
Print Assumptions C65_unknown_names.

(** A field that is not set is there with its computed or default value, whatever default the
    caller gives; reading it never changes the struct. *)
Theorem C65_unset_names : forall E n cid vals name f dflt odflt r, instance_of E cid vals ->
  In (name, f) (k_comps (cls E cid)) -> dget vals name = None ->
  run_struct E n cid vals (compute_value_for_dump (conf f) VNone) = r ->
  (forall k, r <> Raise (EKeyErr k)) ->
  proxy_get E (S n) cid vals name dflt = r
  /\ proxy_contains E (S n) cid vals name = (do _ <- r; Ok true)
  /\ proxy_setdefault E (S n) cid vals name dflt = (vals, r)
  /\ proxy_pop E (S n) cid vals name odflt = (vals, r).
Proof. exact proxy_unset. Qed.
Print Assumptions C65_unset_names.

(** If computing the value raises KeyError, the field is taken not to be there, and [setdefault]
    sets it. *)
Theorem C65_key_error : forall E n cid vals name f dflt k, instance_of E cid vals ->
  In (name, f) (k_comps (cls E cid)) -> dget vals name = None ->
  run_struct E n cid vals (compute_value_for_dump (conf f) VNone) = Raise (EKeyErr k) ->
  proxy_get E (S n) cid vals name dflt = Ok dflt
  /\ proxy_contains E (S n) cid vals name = Ok false
  /\ proxy_pop E (S n) cid vals name (Some dflt) = (vals, Ok dflt)
  /\ proxy_pop E (S n) cid vals name None = (vals, Raise (EKeyErr k))
  /\ (assignable E cid name dflt -> exists vals',
        proxy_setdefault E (S n) cid vals name dflt = (vals', Ok dflt)
        /\ forall x, dget vals' x = if String.eqb x name then Some dflt else dget vals x)
  /\ (~ assignable E cid name dflt -> fst (proxy_setdefault E (S n) cid vals name dflt) = vals
        /\ forall v, snd (proxy_setdefault E (S n) cid vals name dflt) <> Ok v).
Proof. exact proxy_key_error. Qed.
Print Assumptions C65_key_error.

(** Without such a value, all four raise MissingRequiredValueError. *)
Theorem C65_required_names : forall E n cid vals name f dflt odflt, instance_of E cid vals ->
  In (name, f) (k_comps (cls E cid)) -> dget vals name = None ->
  c_default (conf f) = VUndefined -> c_compute (conf f) = None ->
  (forall mem get keys, run_q mem get keys (c_present (conf f) VNone None) = Ok true) ->
  proxy_get E (S n) cid vals name dflt = Raise (EMissingRequired (Some name))
  /\ proxy_contains E (S n) cid vals name = Raise (EMissingRequired (Some name))
  /\ proxy_setdefault E (S n) cid vals name dflt = (vals, Raise (EMissingRequired (Some name)))
  /\ proxy_pop E (S n) cid vals name odflt = (vals, Raise (EMissingRequired (Some name))).
Proof. exact proxy_required. Qed.
Print Assumptions C65_required_names.

(** So the contracts of [get] and [setdefault] are violated. *)
Theorem C65_get_default_refuted : ~ (forall E n cid vals name dflt, instance_of E cid vals ->
  In name (map fst (k_comps (cls E cid))) -> ~ In name (proxy_iter vals) ->
  proxy_get E n cid vals name dflt = Ok dflt).
Proof. exact proxy_get_witness. Qed.
Print Assumptions C65_get_default_refuted.

Theorem C65_setdefault_refuted : ~ (forall E n cid vals name v, instance_of E cid vals ->
  assignable E cid name v -> ~ In name (proxy_iter vals) ->
  snd (proxy_setdefault E n cid vals name v) = Ok v).
Proof. exact proxy_setdefault_witness. Qed.
Print Assumptions C65_setdefault_refuted.

(** Iterating over the items gives the set values. *)
Theorem C65_items : forall E n cid vals, instance_of E cid vals ->
  proxy_items E n cid vals = Ok (set_values vals).
Proof. exact proxy_items_all. Qed.
Print Assumptions C65_items.

(** [len] is the size in bytes, not the number of items. *)
Theorem C65_len_refuted : ~ (forall E n cid vals z, instance_of E cid vals ->
  proxy_len E n cid vals = Ok z -> z = zlen (proxy_iter vals)).
Proof. exact proxy_len_witness. Qed.
Print Assumptions C65_len_refuted.

(** [popitem] takes the first item; [clear] terminates and leaves only values that are
    UNDEFINED. *)
Theorem C65_popitem : forall E n cid vals k v rest, instance_of E cid vals ->
  set_values vals = (k, v) :: rest -> proxy_popitem E n cid vals = (ddel vals k, Ok (k, v)).
Proof. exact proxy_popitem_first. Qed.
Print Assumptions C65_popitem.

Theorem C65_popitem_empty : forall E n cid vals, set_values vals = [] ->
  proxy_popitem E n cid vals = (vals, Raise (EKeyErr "")).
Proof. exact proxy_popitem_empty. Qed.
Print Assumptions C65_popitem_empty.

Theorem C65_clear : forall E n cid turns vals, instance_of E cid vals ->
  (length (proxy_iter vals) < turns)%nat ->
  exists vals', proxy_clear E turns n cid vals = (vals', Ok tt)
    /\ proxy_iter vals' = []
    /\ forall x, dget vals' x
       = match dget vals x with Some VUndefined => Some VUndefined | _ => None end.
Proof. exact proxy_clear_all. Qed.
Print Assumptions C65_clear.

(** [update] assigns in order; it stops at the first value that cannot be assigned and keeps
    what was assigned before. *)
Theorem C65_update : forall E cid items vals, instance_of E cid vals ->
  Forall (fun kv => assignable E cid (fst kv) (snd kv)) items ->
  exists vals', proxy_update E cid vals items = (vals', Ok tt) /\ instance_of E cid vals'
    /\ forall x, dget vals' x
       = match dget (rev items) x with Some v => Some v | None => dget vals x end.
Proof. exact proxy_update_all. Qed.
Print Assumptions C65_update.

Theorem C65_update_stops : forall E cid pre k v post vals, instance_of E cid vals ->
  Forall (fun kv => assignable E cid (fst kv) (snd kv)) pre -> ~ assignable E cid k v ->
  exists vals' r, proxy_update E cid vals (pre ++ (k, v) :: post) = (vals', r)
    /\ (forall x, dget vals' x
        = match dget (rev pre) x with Some w => Some w | None => dget vals x end)
    /\ ((exists e, r = Raise e /\ struct_setitem E cid vals' k v = Raise e)
        \/ r = OOF /\ struct_setitem E cid vals' k v = OOF).
Proof. exact proxy_update_stops. Qed.
Print Assumptions C65_update_stops.

(** Equality compares the set values with those of structs and of proxies of the same class;
    anything else, dicts included, is never equal to a proxy. *)
Theorem C65_equality : forall E n mutable cid vals o cid' vals' r,
  instance_of E cid vals -> instance_of E cid' vals' -> wraps mutable o cid' vals' ->
  proxy_eq E n mutable cid vals o = Ok r ->
  exists da db, view E n (VStruct cid vals) da /\ view E n (VStruct cid' vals') db
    /\ (comparable (VDict da) -> comparable (VDict db) -> (r = true <-> same (VDict da) (VDict db))).
Proof. exact proxy_eq_values. Qed.
Print Assumptions C65_equality.

Theorem C65_equality_others : forall E n mutable cid vals o,
  (forall cid' vals', ~ wraps mutable o cid' vals') ->
  proxy_eq E n mutable cid vals o = Ok false.
Proof. exact proxy_eq_others. Qed.
Print Assumptions C65_equality_others.

Theorem C65_equal_dict_refuted : ~ (forall E n mutable cid vals d, instance_of E cid vals ->
  py_eq E n (VStruct cid vals) (VDict d) = Ok true ->
  proxy_eq E n mutable cid vals (OValue (VDict d)) = Ok true).
Proof. exact proxy_dict_witness. Qed.
Print Assumptions C65_equal_dict_refuted.

Example C65_example :
  instance_of proxy_E 0 proxy_vals
  /\ proxy_get proxy_E 9 0 proxy_vals "b" VNone = Raise (EMissingRequired (Some "b"%string))
  /\ proxy_update proxy_E 0 proxy_vals [("b"%string, VInt 1); ("zz"%string, VInt 2); ("a"%string, VInt 3)]
     = ([("a"%string, VInt 5); ("b"%string, VInt 1)], Raise (EKeyErr "zz"))
  /\ proxy_clear proxy_E 9 9 0 [("a"%string, VInt 5); ("b"%string, VUndefined)]
     = ([("b"%string, VUndefined)], Ok tt)
  /\ proxy_eq proxy_E 9 true 0 proxy_vals (OProxy true 0 (("b"%string, VUndefined) :: proxy_vals))
     = Ok true
  /\ (let full := [("a"%string, VInt 5); ("b"%string, VInt 6)] in
      proxy_eq proxy_E 9 true 0 full (OProxy true 0 (rev full)) = Ok true
      /\ proxy_eq proxy_E 9 true 0 full (OProxy false 0 full) = Ok false)
  /\ (let odd := with_present (fun _ _ => QRaise (EKeyErr "q")) VNotPresent (byte "b") in
      proxy_setdefault [class_of "O" [named "a" (u8 (byte "a")); named "b" (u8 odd)]] 9 0 proxy_vals "b" (VInt 7)
      = ([("a"%string, VInt 5); ("b"%string, VInt 7)], Ok (VInt 7))).
Proof. split; [exact proxy_instance|]. repeat split. Qed.
