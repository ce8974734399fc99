(** C80: what callables see, and what reading a field of a struct gives. *)
From Coq Require Import ZArith List String.
From Verif Require Import Tac Samples AskWitness.
From Verif Require Export AskProofs.
Import ListNotations.
Open Scope string_scope.

(** C80: reading a field gives the stored value, or else the default, the factory's result or the
    computed value, whose callable sees the same struct; if this never ends, reading never does. *)
Theorem C80_reads : forall E cid vals name, well_formed (cls E cid) ->
  (forall v, reads E cid vals name (inl v) <-> exists n, struct_get E n cid vals name = Ok v)
  /\ (forall e, reads E cid vals name (inr e) <-> exists n, struct_get E n cid vals name = Raise e)
  /\ ((forall x, ~ reads E cid vals name x) <-> forall n, struct_get E n cid vals name = OOF).
Proof. exact field_reads. Qed.
Print Assumptions C80_reads.

Theorem C80_reads_one : forall E cid vals name x y, well_formed (cls E cid) ->
  reads E cid vals name x -> reads E cid vals name y -> x = y.
Proof. exact reads_one. Qed.
Print Assumptions C80_reads_one.

(** Any callable, looking at any struct: what it ends with. *)
Theorem C80_struct_callable : forall A E cid vals (q : query A) x, well_formed (cls E cid) ->
  struct_answers E cid vals q x
  <-> exists n, run_struct E n cid vals q = match x with inl a => Ok a | inr e => Raise e end.
Proof. exact (@struct_answers_iff). Qed.
Print Assumptions C80_struct_callable.

(** While loading, callables look at the dict of the fields loaded so far and always end. *)
Theorem C80_dict_callable : forall A d (q : query A),
  exists x, dict_answers d q x /\ (forall y, dict_answers d q y -> y = x)
            /\ run_dict d q = match x with inl a => Ok a | inr e => Raise e end.
Proof. exact dict_callable. Qed.
Print Assumptions C80_dict_callable.

(** [present] decides while loading: the field is read as if always present, or left out without
    touching the stream, or what it raises comes out. *)
Theorem C80_present : forall E n f ctx d s p, dict_answers d (c_present (conf f) ctx (Some s)) p ->
  field_from_stream E n f ctx d s
  = match p with
    | inl true => field_from_stream E n (regardless f) ctx d s
    | inl false => (s, Ok (c_npv (conf f)))
    | inr e => (s, Raise e)
    end.
Proof. exact present_load. Qed.
Print Assumptions C80_present.

(** The value to_dict shows. *)
Theorem C80_to_dict : forall E n cid vals keep d name f v, instance_of E cid vals ->
  to_dict E n cid vals keep = Ok d -> In (name, f) (k_comps (cls E cid)) ->
  (keep = true \/ c_discard (conf f) = false) ->
  dump_value E cid vals name (conf f) (inl v) -> struct_free v -> dget d name = Some v.
Proof. exact to_dict_value. Qed.
Print Assumptions C80_to_dict.

(** Whenever a struct is dumped, each validator has accepted: those of the struct looking at the
    struct, those of a field looking at it with what reading the field gives. *)
Theorem C80_validators : forall E n cid vals ctx out, instance_of E cid vals ->
  struct_to_stream E n cid vals ctx = (out, Ok tt) ->
  Forall (fun q => struct_answers E cid vals q (inl tt)) (k_svals (cls E cid))
  /\ forall name methods, In (name, methods) (k_fvals (cls E cid)) ->
       exists f v, In (name, f) (k_comps (cls E cid)) /\ reads E cid vals name (inl v) /\ accepts (conf f) v
         /\ Forall (fun q => struct_answers E cid vals (q v) (inl tt)) methods.
Proof. exact validators_answer. Qed.
Print Assumptions C80_validators.

Example C80_example :
  well_formed (cls chain 0) /\ reads chain 0 [("a", VInt 1)] "c" (inl (VInt 3))
  /\ struct_get chain 3 0 [("a", VInt 1)] "c" = Ok (VInt 3)
  /\ to_dict chain 9 0 [("a", VInt 1)] false = Ok [("a", VInt 1); ("b", VInt 2); ("c", VInt 3)]
  /\ well_formed (cls circle 0) /\ (forall x, ~ reads circle 0 [] "a" x)
  /\ dict_answers [("x", VInt 1); ("y", VInt 2)] (if_two VNone None) (inl true)
  /\ field_from_stream [] 1 third VNone [("x", VInt 1); ("y", VInt 2)] (mkStream [7%Z] 0)
     = (mkStream [7%Z] 1, Ok (VInt 7))
  /\ field_from_stream [] 1 third VNone [("x", VInt 1)] (mkStream [7%Z] 0) = (mkStream [7%Z] 0, Ok VNone).
Proof.
  assert (Hw1 : well_formed (cls chain 0)).
  { split; [repeat constructor; cbn; intuition discriminate|]. split; [repeat constructor|]. intros x. cbn. tauto. }
  assert (Hw2 : well_formed (cls circle 0)).
  { split; [repeat constructor; cbn; intuition discriminate|]. split; [repeat constructor|]. intros x. cbn. tauto. }
  split; [exact Hw1|]. split; [exact chain_reads|]. split; [reflexivity|]. split; [reflexivity|].
  split; [exact Hw2|]. split.
  { apply (C80_reads circle 0 [] "a" Hw2). intros n. apply circle_endless. }
  split; [apply answers_keys; apply answers_ret|]. split; reflexivity.
Qed.
