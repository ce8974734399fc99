(** Words for callables that move the stream (C102). *)
From Verif Require Export SpecField Readers.

(** Every callable leaves a stream that is related in this way to the one it got. *)
Definition all_moves (R : stream -> stream -> Prop) (M : moves) : Prop :=
  (forall c ctx d s, R s (mv_present M c ctx d s))
  /\ (forall c values ctx d s, R s (mv_halt M c values ctx d s))
  /\ (forall c ctx d s, R s (mv_decide M c ctx d s)).

(** Callables put the stream back where it was; only read; read without seeking back. *)
Definition tidy (M : moves) : Prop := all_moves (fun s s' => s' = s) M.
Definition only_read (M : moves) : Prop := all_moves (fun s s' => s_data s' = s_data s) M.
Definition never_back (M : moves) : Prop := all_moves forward M.

(** How an array with a halt check is loaded: elements so far, stream; all elements, stream. *)
Inductive halting (E : env) (M : moves) (n : nat) (c : fconf) (comp : field) (h : haltfn) (ctx : value) (d : dict)
  : list value -> stream -> list value -> stream -> Prop :=
| halting_end : forall vs s vs', h s vs ctx d = Ok (true, vs') -> halting E M n c comp h ctx d vs s vs' (mv_halt M c vs ctx d s)
| halting_more : forall vs s vs' s1 v vf sf, h s vs ctx d = Ok (false, vs') ->
    r_field_from_stream E M n comp ctx d (mv_halt M c vs ctx d s) = (s1, Ok v) ->
    halting E M n c comp h ctx d (match v with VNotPresent => vs' | _ => vs' ++ [v] end) s1 vf sf ->
    halting E M n c comp h ctx d vs s vf sf.

(** A field that contains no other. *)
Definition simple_kind (k : fkind) : Prop := match k with KArray _ _ _ | KNested _ | KUnion _ _ _ => False | _ => True end.
