(** Model of arrays whose [count] names a field that holds a float (containers.py:120-168 returns
    it as it is). *)
From Verif Require Export StructModel.
Open Scope Z_scope.

(** [x <= z] and [z < x] for a float [x] and an integer [z]. *)
Definition float_le_int (x z : Z) : bool :=
  match classify binary64 x with
  | FNan => false
  | FInf => sign_of binary64 x
  | FFinite => fst (float_rat x) <=? z * snd (float_rat x)
  end.
Definition int_lt_float (z x : Z) : bool :=
  match classify binary64 x with
  | FNan => false
  | FInf => negb (sign_of binary64 x)
  | FFinite => z * snd (float_rat x) <? fst (float_rat x)
  end.

Section Model.
(** The component's [to_stream]; the ArraySizeError with the float and a number of elements
    (errors.py:448-462); the float. *)
Variable dump1 : value -> dumped unit.
Variable err : Z -> exn.
Variable x : Z.

(** containers.py:281-298 [_dump_unsized] *)
Fixpoint f_dump_unsized (n_written : Z) (l : list value) : dumped unit :=
  match l with
  | [] => if int_lt_float n_written x then draise (err n_written) else dret tt
  | v :: l' =>
    if int_float_eqb n_written x then draise (err (n_written + 1))
    else ddo _ <- dump1 v; f_dump_unsized (n_written + 1) l'
  end.

(** containers.py:239-270 [Array._do_dump] *)
Definition f_array_dump (v : value) : dumped unit :=
  match sized_items v with
  | Some l => if negb (int_float_eqb (zlen l) x) then draise (err (zlen l)) else dump_items dump1 l
  | None => match v with VGen l => f_dump_unsized 0 l | _ => draise ETypeErr end
  end.

(** containers.py:225-231 [should_halt] *)
Definition f_should_halt (values : list value) : bool := float_le_int x (zlen values).

(** containers.py:300-324 [Array._do_load] *)
Definition f_array_load (fuel : nat) (load1 : loader value) : loader value :=
  array_load fuel (fun _ values => Ok (f_should_halt values, values)) load1 [].
End Model.
