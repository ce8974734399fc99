(** Small concrete fields and classes, used by the examples beside the theorems and as
    witnesses of refuted contracts. *)
From Verif Require Export SpecField.

Definition named (name : string) (f : field) : string * field := (name, f).

(** A configuration with one attribute changed. *)
Definition with_const (v : value) (c : fconf) : fconf :=
  mkConf (c_name c) v v (c_factory c) (c_discard c) (c_null c) (c_size c)
         (c_validators c) (c_present c) (c_npv c) (c_compute c) (c_index c) (c_offset c).
Definition with_default (v : value) (c : fconf) : fconf :=
  mkConf (c_name c) (c_const c) v (c_factory c) (c_discard c) (c_null c) (c_size c)
         (c_validators c) (c_present c) (c_npv c) (c_compute c) (c_index c) (c_offset c).
Definition with_factory (v : value) (c : fconf) : fconf :=
  mkConf (c_name c) (c_const c) (c_default c) (Some (inl v)) (c_discard c) (c_null c) (c_size c)
         (c_validators c) (c_present c) (c_npv c) (c_compute c) (c_index c) (c_offset c).
Definition with_discard (c : fconf) : fconf :=
  mkConf (c_name c) (c_const c) (c_default c) (c_factory c) true (c_null c) (c_size c)
         (c_validators c) (c_present c) (c_npv c) (c_compute c) (c_index c) (c_offset c).
Definition with_null (v : value) (c : fconf) : fconf :=
  mkConf (c_name c) (c_const c) (c_default c) (c_factory c) (c_discard c) v (c_size c)
         (c_validators c) (c_present c) (c_npv c) (c_compute c) (c_index c) (c_offset c).
Definition with_validators (vs : list (value -> res unit)) (c : fconf) : fconf :=
  mkConf (c_name c) (c_const c) (c_default c) (c_factory c) (c_discard c) (c_null c) (c_size c)
         vs (c_present c) (c_npv c) (c_compute c) (c_index c) (c_offset c).
Definition with_present (p : value -> option stream -> query bool) (npv : value) (c : fconf)
  : fconf :=
  mkConf (c_name c) (c_const c) (c_default c) (c_factory c) (c_discard c) (c_null c) (c_size c)
         (c_validators c) p npv (c_compute c) (c_index c) (c_offset c).
Definition with_compute (q : query value) (c : fconf) : fconf :=
  mkConf (c_name c) (c_const c) (c_default c) (c_factory c) (c_discard c) (c_null c) (c_size c)
         (c_validators c) (c_present c) (c_npv c) (Some q) (c_index c) (c_offset c).
Definition with_offset (i : Z) (o : option Z) (c : fconf) : fconf :=
  mkConf (c_name c) (c_const c) (c_default c) (c_factory c) (c_discard c) (c_null c) (c_size c)
         (c_validators c) (c_present c) (c_npv c) (c_compute c) (Some i) o.

(** An unsigned byte. *)
Definition u8 (c : fconf) : field := Field c (KInt false Little).
Definition byte (name : string) : fconf := basic name (SInt 1).

(** A class from its fields (no method or struct validators). *)
Definition class_of (name : string) (fs : list (string * field)) : classdef :=
  mkClass name fs (map (fun nf => (fst nf, [])) fs) [] (zlen fs) [].

(** The field says so itself: [present=lambda f, *_: f["flag"]], read as "flag is 1". *)
Definition if_flag : value -> option stream -> query bool :=
  fun _ _ => QGet "flag" (fun r => match r with
                                  | inl (VInt 1) => QRet true
                                  | inl _ => QRet false
                                  | inr e => QRaise e
                                  end).

(** [validate=] rejecting numbers above 9 with ValidationError. *)
Definition at_most_9 (v : value) : res unit :=
  match v with
  | VInt z => if z <=? 9 then Ok tt else Raise (EValidation (Some "x"%string))
  | _ => Ok tt
  end.
