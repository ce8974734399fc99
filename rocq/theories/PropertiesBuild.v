(** Property theorem: rebuilding an instance from its [to_dict()] (C64). *)
From Verif Require Import RebuildWitness.

(** C64: an instance built from the items of [x.to_dict()] has the same [to_dict()] and, if
    it is valid, dumps to the same bytes, provided its present fields are still considered
    present and its discarded fields have a value. *)
Theorem C64_same_dict : forall E n cid vals d, instance_of E cid vals ->
  to_dict E n cid vals false = Ok d ->
  (forall name f x, In (name, f) (k_comps (cls E cid)) -> dget d name = Some x ->
     x <> VNotPresent -> run_struct E n cid d (c_present (conf f) VNone None) = Ok true) ->
  (forall name f, In (name, f) (k_comps (cls E cid)) -> c_discard (conf f) = true ->
     exists v, run_struct E n cid d (compute_value_for_dump (conf f) VNone) = Ok v) ->
  to_dict E n cid d false = Ok d.
Proof. exact rebuilt_to_dict. Qed.
Print Assumptions C64_same_dict.

Theorem C64_same_dump : forall E n cid vals d, instance_of E cid vals ->
  to_dict E n cid vals false = Ok d ->
  (forall name f x, In (name, f) (k_comps (cls E cid)) -> dget d name = Some x ->
     x <> VNotPresent -> run_struct E n cid d (c_present (conf f) VNone None) = Ok true) ->
  (forall name f, In (name, f) (k_comps (cls E cid)) -> c_discard (conf f) = true ->
     exists v, run_struct E n cid d (compute_value_for_dump (conf f) VNone) = Ok v) ->
  forall ctx, validated E n cid vals -> validated E n cid d ->
  struct_to_stream E n cid d ctx = struct_to_stream E n cid vals ctx.
Proof. exact rebuilt_dump. Qed.
Print Assumptions C64_same_dump.

(** The constructor always accepts the dictionary. *)
Theorem C64_accepted : forall E n cid vals d, instance_of E cid vals ->
  to_dict E n cid vals false = Ok d -> struct_init E cid d = Ok d.
Proof. exact rebuilt_init. Qed.
Print Assumptions C64_accepted.

Example C64_example :
  instance_of round_E 0 round_vals /\ to_dict round_E 9 0 round_vals false = Ok round_dict
  /\ (forall name f x, In (name, f) (k_comps (cls round_E 0)) -> dget round_dict name = Some x ->
        x <> VNotPresent -> run_struct round_E 9 0 round_dict (c_present (conf f) VNone None) = Ok true)
  /\ (forall name f, In (name, f) (k_comps (cls round_E 0)) -> c_discard (conf f) = true ->
        exists v, run_struct round_E 9 0 round_dict (compute_value_for_dump (conf f) VNone) = Ok v)
  /\ validated round_E 9 0 round_vals /\ validated round_E 9 0 round_dict.
Proof.
  exact (conj round_instance (conj round_to_dict (conj round_present (conj round_discard round_valid)))).
Qed.

(** Without the proviso it fails: the value of a discarded field is lost, and with it what
    depends on that field. *)
Theorem C64_unconditional_refuted :
  ~ (forall E n cid vals d, instance_of E cid vals ->
       to_dict E n cid vals false = Ok d -> to_dict E n cid d false = Ok d).
Proof. exact lost_refutes. Qed.
Print Assumptions C64_unconditional_refuted.
