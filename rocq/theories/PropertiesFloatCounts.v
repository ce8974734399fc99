(** C103: arrays whose count is a float. *)
From Coq Require Import QArith String Lia.
From Verif Require Import SpecFloatCounts FloatCountProofs FloatCountWitness Samples.
Open Scope list_scope.
Open Scope Z_scope.

(** An array whose count is a finite float is loaded as if the count were rounded up; ... *)
Theorem C103_load x fuel load1 name ctx d s : pattern double x -> is_finite double x ->
  f_array_load x fuel load1 s = array_load fuel (array_halt (CntInt (rounded_up x)) None name ctx d) load1 [] s.
Proof. exact (float_loads x fuel load1 name ctx d s). Qed.
Print Assumptions C103_load.

(** ... loading never succeeds if the count is not a number or infinite, ... *)
Theorem C103_load_endless x fuel load1 s s' v : pattern double x -> is_nan double x \/ plus_infinity x -> f_array_load x fuel load1 s <> (s', Ok v).
Proof. exact (endless_count x fuel load1 s s' v). Qed.
Print Assumptions C103_load_endless.

(** ... and reads nothing if it is minus infinity. *)
Theorem C103_load_nothing x fuel load1 s : pattern double x -> minus_infinity x -> f_array_load x (S fuel) load1 s = (s, Ok (VList [])).
Proof. exact (no_elements x fuel load1 s). Qed.
Print Assumptions C103_load_nothing.

(** A float that is a whole number counts like the integer when dumping. *)
Theorem C103_dump_whole dump1 x k name v d : pattern double x -> whole x k ->
  f_array_dump dump1 (fun n => EArraySize name k (Some n)) x v = array_dump dump1 name (CntInt k) v d.
Proof. exact (whole_dump dump1 x k name v d). Qed.
Print Assumptions C103_dump_whole.

(** With any other float no list, string or dict can be dumped; ... *)
Theorem C103_dump_sized dump1 err x v l : pattern double x -> not_whole x -> sized_items v = Some l ->
  f_array_dump dump1 err x v = ([], Raise (err (zlen l))).
Proof. exact (broken_dump dump1 err x v l). Qed.
Print Assumptions C103_dump_sized.

(** ... of a generator all elements are written, and then it is an error if they are fewer. *)
Theorem C103_dump_generator dump1 err x l out : pattern double x -> not_whole x -> dump_items dump1 l = (out, Ok tt) ->
  (falls_short (zlen l) x -> f_array_dump dump1 err x (VGen l) = (out, Raise (err (zlen l))))
  /\ (~ falls_short (zlen l) x -> f_array_dump dump1 err x (VGen l) = (out, Ok tt)).
Proof. exact (broken_generator dump1 err x l out). Qed.
Print Assumptions C103_dump_generator.

(** So a list and a generator of the same values are not dumped alike, ... *)
Theorem C103_alike_refuted : ~ (forall dump1 err x l, pattern double x -> f_array_dump dump1 err x (VList l) = f_array_dump dump1 err x (VGen l)).
Proof. exact alike_refuted. Qed.
Print Assumptions C103_alike_refuted.

(** ... and not all elements that have been written are loaded. *)
Theorem C103_reload_refuted : ~ (forall err x l out fuel, pattern double x -> is_finite double x -> f_array_dump one_byte err x (VGen l) = (out, Ok tt) ->
  (length l < fuel)%nat -> exists s', f_array_load x fuel read_byte (mkStream out 0) = (s', Ok (VList l))).
Proof. exact reload_refuted. Qed.
Print Assumptions C103_reload_refuted.

(** The hypotheses can be met. *)
Example C103_nonvacuous : (pattern double two_and_a_half /\ not_whole two_and_a_half)
  /\ (is_finite double two_and_a_half /\ rounded_up two_and_a_half = 3)
  /\ (pattern double two /\ whole two 2)
  /\ f_array_load two_and_a_half 5 read_byte (mkStream [1; 2; 3; 4] 0) = (mkStream [1; 2; 3; 4] 3, Ok (VList [VInt 1; VInt 2; VInt 3])).
Proof. exact (conj half_broken (conj half_finite (conj two_whole eq_refl))). Qed.

Example C103_endless_nonvacuous : pattern double a_nan /\ is_nan double a_nan /\ pattern double an_infinity /\ plus_infinity an_infinity.
Proof. exact odd_ones. Qed.
