(** What [repr] of a struct should say (C97), independently of how it is built. *)
From Coq Require Import String.
From Verif Require Export SpecMessages Introspect.
Open Scope list_scope.
Open Scope Z_scope.

(** A name: it starts with an ASCII letter or an underscore, and has no quotes, brackets, commas
    and equals signs. *)
Definition letter (ch : Z) : Prop := 65 <= ch <= 90 \/ ch = 95 \/ 97 <= ch <= 122.
Definition ident (t : text) : Prop :=
  exists ch t', t = ch :: t' /\ letter ch /\ Forall (fun c => ~ In c [34; 39; 40; 41; 44; 61; 91; 93; 123; 125]) t'.

(** [t] is how a value is written in Python. *)
Section Shows.
Variable qualname : nat -> text.

Inductive shows : value -> text -> Prop :=
| sh_none : shows VNone (lit "None")
| sh_undefined : shows VUndefined (lit "<_Undefined.token: 0>")
| sh_default : shows VDefault (lit "<_Default.token: 0>")
| sh_absent : shows VNotPresent (lit "<_NotPresent.token: 0>")
| sh_int z t : decimal z t -> shows (VInt z) t
| sh_str s t : literal s t -> shows (VStr s) t
| sh_bytes s t : literal s t -> shows (VBytes s) (lit "b" ++ t)
| sh_uuid u t : 0 <= u < 2 ^ 128 -> literal (uuid_str u) t -> shows (VUUID u) (lit "UUID(" ++ t ++ lit ")")
| sh_list l t : items l t -> shows (VList l) (lit "[" ++ t ++ lit "]")
| sh_dict d t : pairs d t -> shows (VDict d) (lit "{" ++ t ++ lit "}")
| sh_struct cid d t : ident (qualname cid) -> arguments d t -> shows (VStruct cid d) (qualname cid ++ lit "(" ++ t ++ lit ")")
with items : list value -> text -> Prop :=
| it_none : items [] []
| it_one v t : shows v t -> items [v] t
| it_more v t w l u : shows v t -> items (w :: l) u -> items (v :: w :: l) (t ++ lit ", " ++ u)
with pairs : dict -> text -> Prop :=
| pa_none : pairs [] []
| pa_one k v t k' : literal (lit k) k' -> shows v t -> pairs [(k, v)] (k' ++ lit ": " ++ t)
| pa_more k v t k' w l u : literal (lit k) k' -> shows v t -> pairs (w :: l) u ->
    pairs ((k, v) :: w :: l) (k' ++ lit ": " ++ t ++ lit ", " ++ u)
with arguments : dict -> text -> Prop :=
| ar_none : arguments [] []
| ar_one k v t : ident (lit k) -> shows v t -> arguments [(k, v)] (lit k ++ lit "=" ++ t)
| ar_more k v t w l u : ident (lit k) -> shows v t -> arguments (w :: l) u ->
    arguments ((k, v) :: w :: l) (lit k ++ lit "=" ++ t ++ lit ", " ++ u).

(** The values [repr] is modelled of. *)
Inductive showable : value -> Prop :=
| sw_none : showable VNone
| sw_undefined : showable VUndefined
| sw_default : showable VDefault
| sw_absent : showable VNotPresent
| sw_int z : showable (VInt z)
| sw_str s : ascii_text s -> showable (VStr s)
| sw_bytes s : Forall (fun b => 0 <= b < 256) s -> showable (VBytes s)
| sw_uuid u : 0 <= u < 2 ^ 128 -> showable (VUUID u)
| sw_list l : Forall showable l -> showable (VList l)
| sw_dict d : Forall (fun kv => ascii_text (lit (fst kv)) /\ showable (snd kv)) d -> showable (VDict d)
| sw_struct cid d : ident (qualname cid) -> Forall (fun kv => ident (lit (fst kv)) /\ showable (snd kv)) d -> showable (VStruct cid d).
End Shows.

(** ** Classes *)

(** The field object [f] is a component of the class declared last among those having it:
    number [c]. *)
Definition last_with (classes : list (list nat)) (f c : nat) : Prop :=
  (exists l, nth_error classes c = Some l /\ In f l) /\ forall c' l, (c < c')%nat -> nth_error classes c' = Some l -> ~ In f l.
