(** Words for warnings that are errors (C99). *)
From Verif Require Export SpecField Warn.
Open Scope list_scope.

(** The same result, unless stopped by a warning after a part of the bytes. *)
Definition same_or_warned (strict lax : dumped unit) : Prop :=
  strict = lax \/ exists out rest, strict = (out, Raise deprecation) /\ fst lax = out ++ rest.

(** Callables that raise no library errors but SerializationError and UndefinedSizeError, as long
    as they do not see others. *)
Definition loud (e : exn) : bool := is_binobj_Error e && negb (is_SerializationError e || is_UndefinedSizeError e).
Inductive meek {A} : query A -> Prop :=
| meek_ret : forall a, meek (QRet a)
| meek_raise : forall e, loud e = false -> meek (QRaise e)
| meek_in : forall name k, (forall b, meek (k b)) -> meek (QIn name k)
| meek_get : forall name k, (forall v, meek (k (inl v))) -> (forall e, loud e = false -> meek (k (inr e))) -> meek (QGet name k)
| meek_keys : forall k, (forall l, meek (k l)) -> meek (QKeys k).

Definition meek_field (f : field) : Prop :=
  (forall ctx s, meek (c_present (conf f) ctx s))
  /\ match c_compute (conf f) with Some q => meek q | None => True end
  /\ match c_factory (conf f) with Some (inr e) => loud e = false | _ => True end.
Definition meek_env (E : env) : Prop := Forall (fun k => Forall (fun nf => meek_field (snd nf)) (k_comps k)) E.

(** No dates anywhere in a field. *)
Fixpoint dateless (f : field) : bool :=
  match kind f with
  | KTime _ _ _ _ => false
  | KArray comp _ _ => dateless comp
  | KUnion choices _ _ => forallb (fun ch => match ch with CField g => dateless g | CStruct _ => true end) choices
  | _ => true
  end.
Definition dateless_env (E : env) : Prop := Forall (fun k => Forall (fun nf => dateless (snd nf) = true) (k_comps k)) E.
