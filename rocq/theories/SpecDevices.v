(** Words for loading from other streams (C94). *)
From Verif Require Export Devices.

Definition unlimited (i : nat) : option nat := None.

(** Callables do not look at the stream. *)
Inductive blind : field -> Prop :=
| blind_field f :
    (forall ctx s, c_present (conf f) ctx (Some s) = c_present (conf f) ctx (Some unseen)) ->
    (forall comp cnt halt, kind f = KArray comp cnt halt ->
       blind comp /\ forall h, halt = Some h -> forall s vs ctx d, h s vs ctx d = h unseen vs ctx d) ->
    (forall choices ld dmp, kind f = KUnion choices ld dmp ->
       (forall g, In (CField g) choices -> blind g) /\ forall s ctx d, ld s ctx d = ld unseen ctx d) ->
    blind f.

Definition blind_env (E : env) : Prop := forall cid name f, In (name, f) (comps E cid) -> blind f.

(** The program does what the loader does. *)
Definition same {A} (p : prog A) (l : loader A) (s : stream) : Prop :=
  forall i, exists i', run unlimited true p s i = ((fst (l s), i'), Some (snd (l s))) /\ s_data (fst (l s)) = s_data s.

Definition is_eof (e : exn) : Prop := exists fld n off, e = EUnexpectedEOF fld n off.

(** Nothing but a shortage of data happens. *)
Inductive gives_eof {A} : prog A -> Prop :=
| gives_done e : is_eof e -> gives_eof (PDone (Raise e))
| gives_tell k : (forall z, gives_eof (k z)) -> gives_eof (PTell k).

(** A short read is noticed, unless it cannot be short. *)
Inductive careful {A} : prog A -> Prop :=
| careful_done r : careful (PDone r)
| careful_read n k : (forall data, careful (k data)) -> n <= 1 \/ (forall data, zlen data < n -> gives_eof (k data)) -> careful (PRead n k)
| careful_tell k : (forall z, careful (k z)) -> careful (PTell k)
| careful_seek q p : careful p -> careful (PSeek q p)
| careful_skip n p : careful p -> careful (PSkip n p).

(** No read can be short. *)
Inductive steady {A} : prog A -> Prop :=
| steady_done r : steady (PDone r)
| steady_read n k : n <= 1 -> (forall data, steady (k data)) -> steady (PRead n k)
| steady_tell k : (forall z, steady (k z)) -> steady (PTell k)
| steady_seek q p : steady p -> steady (PSeek q p)
| steady_skip n p : steady p -> steady (PSkip n p).

(** Only [read] is used. *)
Inductive reads_only {A} : prog A -> Prop :=
| reads_done r : reads_only (PDone r)
| reads_read n k : (forall data, reads_only (k data)) -> reads_only (PRead n k).

(** A property of a field and of all the fields in it, struct classes aside. *)
Inductive through (P : field -> Prop) : field -> Prop :=
| through_field f : P f ->
    (forall comp cnt halt, kind f = KArray comp cnt halt -> through P comp) ->
    (forall choices ld dmp, kind f = KUnion choices ld dmp -> forall g, In (CField g) choices -> through P g) ->
    through P f.

Definition everywhere (P : field -> Prop) (E : env) : Prop := forall cid name f, In (name, f) (comps E cid) -> through P f.

(** Fields that cannot be null. *)
Definition not_null (f : field) : Prop := allow_null (conf f) = false.

(** Fields that are read byte by byte. *)
Definition bytewise (f : field) : Prop :=
  not_null f /\ match kind f with
                | KVli _ _ | KStringZ _ _ | KArray _ _ _ | KNested _ | KUnion _ _ _ => True
                | _ => False
                end.

(** Fields that need nothing but [read], byte by byte. *)
Definition sequential (f : field) : Prop :=
  not_null f /\ match kind f with
                | KStringZ _ _ | KNested _ | KUnion _ _ _ => True
                | KArray _ cnt halt => cnt <> CntNone \/ halt <> None
                | _ => False
                end.

(** Fields whose loading begins with [tell]. *)
Definition needs_tell (f : field) : Prop :=
  match kind f with
  | KInt _ _ => exists n, c_size (conf f) = SInt n
  | KVli _ _ | KFloat _ _ | KBytes | KString _ _ => True
  | _ => False
  end.
