(** Words for loading with [present] functions that change their minds (C109). *)
From Verif Require Export SpecField SpecAsk SpecMoods MoodLoads.

(** The components as they are when it is their turn, the first one at time [t]. *)
Fixpoint in_turn (mood : nat -> fconf -> fconf) (t : nat) (fs : list (string * field)) : list (string * field) :=
  match fs with
  | [] => []
  | (name, f) :: fs => (name, at_time mood t f) :: in_turn mood (S t) fs
  end.

(** What a field gives if it is there, or if it is not. *)
Definition taken (E : env) (n : nat) (f : field) (ctx : value) (d : dict) (there : bool) (s s' : stream) (v : value) : Prop :=
  if there then field_from_stream E n (regardless f) ctx d s = (s', Ok v)
  else s' = s /\ v = c_npv (conf f).

(** Components loaded one after the other; each is there if its [present] function says so when asked,
    once, at its turn. *)
Inductive taken_in_turn (E : env) (mood : nat -> fconf -> fconf) (n : nat) (ctx : value)
  : nat -> list (string * field) -> dict -> stream -> dict -> stream -> Prop :=
| taken_nil : forall t d s, taken_in_turn E mood n ctx t [] d s d s
| taken_cons : forall t name f fs d s there v s1 d' s',
    dict_answers d (c_present (mood t (conf f)) ctx (Some s)) (inl there) ->
    taken E n f ctx d there s s1 v ->
    taken_in_turn E mood n ctx (S t) fs (d ++ [(name, v)]) s1 d' s' ->
    taken_in_turn E mood n ctx t ((name, f) :: fs) d s d' s'.
