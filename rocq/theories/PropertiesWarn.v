(** C99: warnings that are errors. *)
From Coq Require Import String Lia.
From Verif Require Import SpecWarn FieldProofs WarnProofs WarnWitness Samples.
Open Scope list_scope.
Open Scope Z_scope.

(** Where warnings are errors, dumping a struct does what it does elsewhere, unless a warning stops
    it after a part of the bytes; ... *)
Theorem C99_same_or_warned E n cid vals ctx : same_or_warned (s_struct_to_stream E n cid vals ctx) (struct_to_stream E n cid vals ctx).
Proof. exact (strict_struct E n cid vals ctx). Qed.
Print Assumptions C99_same_or_warned.

(** ... so does dumping a field. *)
Theorem C99_same_or_warned_field E n f v ctx d : same_or_warned (s_field_to_stream E n f v ctx d) (field_to_stream E n f v ctx d).
Proof. exact (strict_field E n f v ctx d). Qed.
Print Assumptions C99_same_or_warned_field.

(** [to_dict] never warns, unless a compute, [present] or factory function raises a library error
    that is neither a SerializationError nor an UndefinedSizeError by itself, ... *)
Theorem C99_to_dict_quiet E n cid vals keep : meek_env E -> s_to_dict E n cid vals keep = to_dict E n cid vals keep.
Proof. exact (fun H => quiet_to_dict E H n cid vals keep). Qed.
Print Assumptions C99_to_dict_quiet.

(** ... and if there are no dates either, dumping never warns. *)
Theorem C99_quiet E n cid vals ctx : meek_env E -> dateless_env E -> s_struct_to_stream E n cid vals ctx = struct_to_stream E n cid vals ctx.
Proof. exact (fun H1 H2 => quiet_struct E H1 H2 n cid vals ctx). Qed.
Print Assumptions C99_quiet.

(** A date is warned about just if it has a time zone and the field has none, or the reverse; ... *)
Theorem C99_dates E n c r tz sg e us aware ctx d : accepts c (VTime us aware) ->
  (aware <> tz -> s_field_to_stream E n (Field c (KTime r tz sg e)) (VTime us aware) ctx d = ([], Raise deprecation))
  /\ (aware = tz -> s_field_to_stream E n (Field c (KTime r tz sg e)) (VTime us aware) ctx d
                    = field_to_stream E n (Field c (KTime r tz sg e)) (VTime us aware) ctx d).
Proof.
  exact (fun Hv => conj (fun Hne => date_field E n c r tz sg e us aware ctx d (accepts_run c _ Hv) Hne)
                        (fun Heq => match Heq in _ = z return s_field_to_stream E n (Field c (KTime r z sg e)) (VTime us aware) ctx d
                                                              = field_to_stream E n (Field c (KTime r z sg e)) (VTime us aware) ctx d
                                    with eq_refl => date_field_same E n c r aware sg e us ctx d end)).
Qed.
Print Assumptions C99_dates.

(** ... dates that such a field has loaded can be dumped by it without warning. *)
Theorem C99_loaded_dates E n c r tz sg e ctx d s s' us aware : c_npv c <> VTime us aware ->
  field_from_stream E n (Field c (KTime r tz sg e)) ctx d s = (s', Ok (VTime us aware)) ->
  forall ctx' d', s_field_to_stream E n (Field c (KTime r tz sg e)) (VTime us aware) ctx' d'
                  = field_to_stream E n (Field c (KTime r tz sg e)) (VTime us aware) ctx' d'.
Proof. exact (loaded_quiet E n c r tz sg e ctx d s s' us aware). Qed.
Print Assumptions C99_loaded_dates.

(** The warning in [_to_dict_whatever_possible] is excluded from coverage; but it is reached, and a
    struct that can be dumped cannot be dumped where warnings are errors. *)
Theorem C99_never_warns_refuted :
  ~ (forall E n cid vals ctx out, dateless_env E -> instance_of E cid vals ->
       struct_to_stream E n cid vals ctx = (out, Ok tt) -> s_struct_to_stream E n cid vals ctx = (out, Ok tt)).
Proof. exact scold_refutes. Qed.
Print Assumptions C99_never_warns_refuted.

(** The hypotheses can be met. *)
Example C99_quiet_nonvacuous : meek_env mild_env /\ dateless_env mild_env
  /\ s_struct_to_stream mild_env 5 0 [("a"%string, VInt 3)] VNone = ([3; 7], Ok tt).
Proof. exact (conj mild_meek (conj mild_dateless (eq_refl _))). Qed.
Example C99_dates_nonvacuous :
  let f tz := Field (basic "t" (SInt 4)) (KTime ResS tz false Little) in
  s_field_to_stream [] 1 (f true) (VTime 5000000 true) VNone [] = ([5; 0; 0; 0], Ok tt)
  /\ s_field_to_stream [] 1 (f true) (VTime 5000000 false) VNone [] = ([], Raise deprecation)
  /\ field_from_stream [] 1 (f true) VNone [] (mkStream [5; 0; 0; 0] 0) = (mkStream [5; 0; 0; 0] 4, Ok (VTime 5000000 true)).
Proof. vm_compute. auto. Qed.
