(** C101: hosts with different byte orders. *)
From Coq Require Import String Lia.
From Verif Require Import SpecHosts Decl HostProofs HostWitness Samples.
Open Scope list_scope.
Open Scope Z_scope.

(** If every number of more than one byte gives its byte order, then a struct is dumped in the same
    way on all hosts, ... *)
Theorem C101_dump h h' E E' n cid vals ctx : ported_env h h' E E' -> struct_to_stream E n cid vals ctx = struct_to_stream E' n cid vals ctx.
Proof. exact (fun H => port_to_stream h h' E E' H n cid vals ctx). Qed.
Print Assumptions C101_dump.

(** ... and loaded in the same way; ... *)
Theorem C101_load h h' E E' n cid ctx kw s : ported_env h h' E E' -> struct_from_stream E n cid ctx kw s = struct_from_stream E' n cid ctx kw s.
Proof. exact (fun H => port_from_stream h h' E E' H n cid ctx kw s). Qed.
Print Assumptions C101_load.

(** ... so are its fields, ... *)
Theorem C101_fields h h' E E' n f f' v ctx d s : ported_env h h' E E' -> ported h h' f f' ->
  field_to_stream E n f v ctx d = field_to_stream E' n f' v ctx d /\ field_from_stream E n f ctx d s = field_from_stream E' n f' ctx d s.
Proof. exact (fun H Hf => conj (port_to_field h h' E E' H n f f' v ctx d Hf) (port_from_field h h' E E' H n f f' ctx d s Hf)). Qed.
Print Assumptions C101_fields.

(** ... and parts of it. *)
Theorem C101_parts h h' E E' n cid vals last nm ctx s : ported_env h h' E E' ->
  partial_dump E n cid vals last ctx = partial_dump E' n cid vals last ctx
  /\ partial_load E n cid last ctx s = partial_load E' n cid last ctx s
  /\ get_field E n cid nm ctx s = get_field E' n cid nm ctx s.
Proof.
  exact (fun H => conj (port_partial_dump h h' E E' H n cid vals last ctx)
                 (conj (port_partial_load h h' E E' H n cid last ctx s) (port_get_field h h' E E' H n cid nm ctx s))).
Qed.
Print Assumptions C101_parts.

(** Dicts, comparisons and lengths are the same, too. *)
Theorem C101_values h h' E E' n cid vals keep a b : ported_env h h' E E' ->
  to_dict E n cid vals keep = to_dict E' n cid vals keep /\ py_eq E n a b = py_eq E' n a b /\ struct_len E n cid vals = struct_len E' n cid vals.
Proof. exact (fun H => conj (port_to_dict h h' E E' H n cid vals keep) (conj (port_eq h h' E E' H n a b) (port_len h h' E E' H n cid vals))). Qed.
Print Assumptions C101_values.

(** An integer that gives no byte order is written backwards on a host of the other kind. *)
Theorem C101_reversed E n c sg z ctx d out : field_to_stream E n (Field c (integer_on Little sg None)) (VInt z) ctx d = (out, Ok tt) ->
  field_to_stream E n (Field c (integer_on Big sg None)) (VInt z) ctx d = (rev out, Ok tt).
Proof. exact (reversed_integer E n c sg z ctx d out). Qed.
Print Assumptions C101_reversed.

(** An integer need not give it if the class has a default, for all fields or for the integer's
    class, ... *)
Theorem C101_class_default h h' defaults nm i o class c sg :
  assoc defaults (class ++ "__endian")%string <> None \/ assoc defaults "endian"%string <> None ->
  bind_to_container defaults nm i o (mkDecl class false (Field c (integer_on h sg None)))
  = bind_to_container defaults nm i o (mkDecl class false (Field c (integer_on h' sg None))).
Proof. exact (bind_hosts h h' defaults nm i o class c sg). Qed.
Print Assumptions C101_class_default.

(** ... but a float or a timestamp must. *)
Theorem C101_class_default_refuted :
  ~ (forall h h' defaults nm i o class c fmt, assoc defaults "endian"%string <> None ->
       bind_to_container defaults nm i o (mkDecl class false (Field c (float_on h fmt None)))
       = bind_to_container defaults nm i o (mkDecl class false (Field c (float_on h' fmt None))))
  /\ ~ (forall h h' defaults nm i o class c r tz sg, assoc defaults "endian"%string <> None ->
       bind_to_container defaults nm i o (mkDecl class false (Field c (timestamp_on h r tz sg None)))
       = bind_to_container defaults nm i o (mkDecl class false (Field c (timestamp_on h' r tz sg None)))).
Proof. exact bind_refuted. Qed.
Print Assumptions C101_class_default_refuted.

(** Without byte orders, what one host has written another reads as something else. *)
Theorem C101_any_host_refuted :
  ~ (forall c sg z ctx d out s', field_to_stream [] 5 (Field c (integer_on Little sg None)) (VInt z) ctx d = (out, Ok tt) ->
       field_from_stream [] 5 (Field c (integer_on Little sg None)) ctx d (mkStream out 0) = (s', Ok (VInt z)) ->
       field_from_stream [] 5 (Field c (integer_on Big sg None)) ctx d (mkStream out 0) = (s', Ok (VInt z))).
Proof. exact any_host_refuted. Qed.
Print Assumptions C101_any_host_refuted.

(** The hypotheses can be met: bytes that give no order, numbers that do, in arrays and unions. *)
Example C101_nonvacuous : ported_env Little Big (travel_env Little) (travel_env Big)
  /\ travel_env Little <> travel_env Big
  /\ struct_to_stream (travel_env Big) 5 0 [("n"%string, VInt 2); ("l"%string, VList [VInt 258; VInt 3]); ("u"%string, VInt 7)] VNone = ([2; 2; 1; 3; 0; 7], Ok tt).
Proof. exact travel_met. Qed.

Example C101_reversed_nonvacuous :
  field_to_stream [] 5 (Field (basic "x" (SInt 3)) (integer_on Little true None)) (VInt (-2)) VNone [] = ([254; 255; 255], Ok tt)
  /\ assoc [("Int16__endian"%string, Big)] ("Int16" ++ "__endian")%string <> None.
Proof. split; [reflexivity|discriminate]. Qed.
