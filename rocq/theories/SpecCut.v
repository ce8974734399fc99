(** Specification vocabulary for truncated data. *)
From Verif Require Export SpecLocal.

(** The data ended too soon, and the exception says so. *)
Definition ends_early {A} (r : stream * res A) : Prop :=
  exists s e, r = (s, Raise e) /\ is_UnexpectedEOFError e = true.

(** Kinds of leaf whose loader notices that the data ends too soon: all but null-terminated
    text, whose loader cannot tell a missing terminator from undecodable text.  Numbers and
    UUIDs have a fixed size. *)
Definition noticing (c : fconf) (k : fkind) : Prop :=
  match k with
  | KStringZ _ _ => False
  | KInt _ _ | KFloat _ _ | KUuid _ => exists n, c_size c = SInt n
  | _ => True
  end.

Inductive notices_end : field -> Prop :=
| notices_leaf : forall c k, noticing c k ->
    match k with KArray _ _ _ | KNested _ | KUnion _ _ _ => False | _ => True end ->
    notices_end (Field c k)
| notices_array : forall c comp cnt halt, notices_end comp ->
    notices_end (Field c (KArray comp cnt halt))
| notices_nested : forall c cid, notices_end (Field c (KNested cid))
| notices_union : forall c choices ld dd, (forall g, In (CField g) choices -> notices_end g) ->
    notices_end (Field c (KUnion choices ld dd)).

(** No null-terminated text anywhere. *)
Definition noticing_schema (E : env) : Prop := forall cid name f,
  In (name, f) (k_comps (cls E cid)) -> notices_end f.

(** [k] bytes of [data] cut between two fields: [pre] are complete, the next one is not. *)
Definition cut_after (E : env) (n : nat) (ctx : value) (fs : list (string * field))
    (data : list Z) (k : nat) (pre post : list (string * field)) (d : dict) (p : nat) : Prop :=
  fs = pre ++ post
  /\ loads E n ctx pre [] (mkStream data 0) d (mkStream data p)
  /\ (p <= k)%nat
  /\ match post with
     | [] => True
     | (_, f) :: _ => exists s v, field_from_stream E n f ctx d (mkStream data p) = (s, Ok v)
         /\ (k < s_pos s)%nat
     end.
