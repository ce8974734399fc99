(** Model of the mapping proxies (structures.py:832-863).  The methods not written there come
    from CPython's [collections.abc.Mapping] and [MutableMapping] (Lib/_collections_abc.py) and
    from [dataclasses.dataclass] ([__eq__]).

    A proxy is given by the class and the stored values of the struct behind it.  Operations
    that change the struct return its values afterwards, also when they raise. *)
From Verif Require Export StructModel.

Section Proxy.
Variable E : env.

(** structures.py:842-849: [proxy[name]], [iter(proxy)], [len(proxy)]. *)
Definition proxy_getitem (n : nat) (cid : nat) (vals : dict) (name : string) : res value :=
  struct_get E n cid vals name.

Definition proxy_iter (vals : dict) : list string := struct_keys vals.

Definition proxy_len (n : nat) (cid : nat) (vals : dict) : res Z := struct_len E n cid vals.

(** structures.py:859-863: [proxy[key] = value], [del proxy[key]]. *)
Definition proxy_setitem (cid : nat) (vals : dict) (name : string) (v : value) : dict * res unit :=
  match struct_setitem E cid vals name v with
  | Ok vals' => (vals', Ok tt)
  | Raise e => (vals, Raise e)
  | OOF => (vals, OOF)
  end.

Definition proxy_delitem (cid : nat) (vals : dict) (name : string) : dict * res unit :=
  match struct_delitem E cid vals name with
  | Ok vals' => (vals', Ok tt)
  | Raise e => (vals, Raise e)
  | OOF => (vals, OOF)
  end.

(** [Mapping.get]: [try: return self[key] except KeyError: return default]. *)
Definition proxy_get (n : nat) (cid : nat) (vals : dict) (name : string) (default : value)
  : res value :=
  match proxy_getitem n cid vals name with
  | Raise (EKeyErr _) => Ok default
  | r => r
  end.

(** [Mapping.__contains__]: [try: self[key] except KeyError: return False else: return True]. *)
Definition proxy_contains (n : nat) (cid : nat) (vals : dict) (name : string) : res bool :=
  match proxy_getitem n cid vals name with
  | Ok _ => Ok true
  | Raise (EKeyErr _) => Ok false
  | Raise e => Raise e
  | OOF => OOF
  end.

(** [ItemsView.__iter__]: [for key in self._mapping: yield (key, self._mapping[key])]. *)
Definition proxy_items (n : nat) (cid : nat) (vals : dict) : res dict :=
  mapM (fun k => do v <- proxy_getitem n cid vals k; Ok (k, v)) (proxy_iter vals).

(** [MutableMapping.pop]; [None] is a call without default. *)
Definition proxy_pop (n : nat) (cid : nat) (vals : dict) (name : string) (default : option value)
  : dict * res value :=
  match proxy_getitem n cid vals name with
  | Ok v =>
    match proxy_delitem cid vals name with
    | (vals', Ok _) => (vals', Ok v)
    | (vals', Raise e) => (vals', Raise e)
    | (vals', OOF) => (vals', OOF)
    end
  | Raise (EKeyErr k) =>
    match default with
    | Some d => (vals, Ok d)
    | None => (vals, Raise (EKeyErr k))
    end
  | Raise e => (vals, Raise e)
  | OOF => (vals, OOF)
  end.

(** [MutableMapping.popitem]; the KeyError of an empty mapping carries no name. *)
Definition proxy_popitem (n : nat) (cid : nat) (vals : dict) : dict * res (string * value) :=
  match proxy_iter vals with
  | [] => (vals, Raise (EKeyErr ""))
  | k :: _ =>
    match proxy_getitem n cid vals k with
    | Ok v =>
      match proxy_delitem cid vals k with
      | (vals', Ok _) => (vals', Ok (k, v))
      | (vals', Raise e) => (vals', Raise e)
      | (vals', OOF) => (vals', OOF)
      end
    | Raise e => (vals, Raise e)
    | OOF => (vals, OOF)
    end
  end.

(** [MutableMapping.clear]: [try: while True: self.popitem() except KeyError: pass]; [turns]
    bounds the loop. *)
Fixpoint proxy_clear (turns : nat) (n : nat) (cid : nat) (vals : dict) : dict * res unit :=
  match turns with
  | O => (vals, OOF)
  | S turns' =>
    match proxy_popitem n cid vals with
    | (vals', Ok _) => proxy_clear turns' n cid vals'
    | (vals', Raise (EKeyErr _)) => (vals', Ok tt)
    | (vals', Raise e) => (vals', Raise e)
    | (vals', OOF) => (vals', OOF)
    end
  end.

(** [MutableMapping.update]: [self[key] = value] for the items of the argument, then for the
    keyword arguments; here one list of pairs. *)
Fixpoint proxy_update (cid : nat) (vals : dict) (items : dict) : dict * res unit :=
  match items with
  | [] => (vals, Ok tt)
  | (k, v) :: items' =>
    match proxy_setitem cid vals k v with
    | (vals', Ok _) => proxy_update cid vals' items'
    | r => r
    end
  end.

(** [MutableMapping.setdefault] *)
Definition proxy_setdefault (n : nat) (cid : nat) (vals : dict) (name : string) (default : value)
  : dict * res value :=
  match proxy_getitem n cid vals name with
  | Ok v => (vals, Ok v)
  | Raise (EKeyErr _) =>
    match proxy_setitem cid vals name default with
    | (vals', Ok _) => (vals', Ok default)
    | (vals', Raise e) => (vals', Raise e)
    | (vals', OOF) => (vals', OOF)
    end
  | Raise e => (vals, Raise e)
  | OOF => (vals, OOF)
  end.

(** [==] with a proxy on the left.  [@dataclass] (structures.py:832, 852) generates an
    [__eq__] that compares the wrapped structs of two proxies of the same class and otherwise
    returns NotImplemented; then [Struct.__eq__] (777-797) gets its turn if the right operand
    is a Struct, and anything else is unequal.  The wrapped structs are different objects
    (Python compares identical ones equal at once). *)
Inductive operand : Type :=
| OProxy (mutable : bool) (cid : nat) (vals : dict)
| OValue (v : value).

Definition proxy_eq (n : nat) (mutable : bool) (cid : nat) (vals : dict) (other : operand)
  : res bool :=
  match other with
  | OProxy mutable' cid' vals' =>
    if Bool.eqb mutable mutable' then py_eq E n (VStruct cid vals) (VStruct cid' vals')
    else Ok false
  | OValue (VStruct cid' vals') => py_eq E n (VStruct cid' vals') (VStruct cid vals)
  | OValue _ => Ok false
  end.

End Proxy.
