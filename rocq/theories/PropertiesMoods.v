(** C98: compute, present and factory functions that answer differently each time. *)
From Coq Require Import String Lia.
From Verif Require Import SpecMoods MoodProofs MoodWitness Samples.
Open Scope list_scope.
Open Scope Z_scope.

(** If they do not, dumping is as elsewhere in this model. *)
Theorem C98_steady E mood n cid vals ctx t : (forall t c, mood t c = c) ->
  t_struct_to_stream E mood n cid vals ctx t = struct_to_stream E n cid vals ctx.
Proof. exact (fun H => steady_struct E mood H n cid vals ctx t). Qed.
Print Assumptions C98_steady.

(** Whatever they answer, a dump that succeeds has settled on one value for every field: each is
    written once, as it is in that dictionary, and sizes and counts are taken from the same
    dictionary; fields' validators accept what is written. *)
Theorem C98_one_dictionary E mood n cid vals ctx t out : moody mood -> well_formed (cls E cid) ->
  t_struct_to_stream E mood n cid vals ctx t = (out, Ok tt) ->
  exists t1 t2 all parts, t_validate_contents E mood n cid vals t = (t1, Ok tt) /\ t_to_dict E mood n cid vals false t1 = (t2, Ok all)
    /\ Forall2 (written_once E mood n ctx all) (k_comps (cls E cid)) parts /\ out = concat parts.
Proof. exact (fun H => moody_struct E mood H n cid vals ctx t out). Qed.
Print Assumptions C98_one_dictionary.

(** Values that are set are in it, unless absent ... *)
Theorem C98_set_values E mood n cid vals t t' all name f v : moody mood -> instance_of E cid vals -> In (name, f) (k_comps (cls E cid)) ->
  dget vals name = Some v -> v <> VUndefined -> c_discard (conf f) = false ->
  t_to_dict E mood n cid vals false t = (t', Ok all) ->
  dget all name = Some VNotPresent \/ exists v', recursive_to_dicts E n v = Ok v' /\ dget all name = Some v'.
Proof. exact (fun H Hi Hf Hv Hu => stored_to_dict E mood H n cid vals name f v Hi Hf Hv Hu t t' all). Qed.
Print Assumptions C98_set_values.

(** ... and are what the [@validates] methods of the field have seen. *)
Theorem C98_set_values_validated E mood n cid vals t t' name f v vs q : instance_of E cid vals -> In (name, f) (k_comps (cls E cid)) ->
  dget vals name = Some v -> t_validate_contents E mood n cid vals t = (t', Ok tt) ->
  In (name, vs) (k_fvals (cls E cid)) -> In q vs ->
  exists s s', t_run_struct E mood n cid vals (q v) s = (s', Ok tt).
Proof. exact (fun Hi Hf Hv => stored_validated E mood n cid vals name f v Hi Hf Hv t t' vs q). Qed.
Print Assumptions C98_set_values_validated.

(** A computed value that is written need not be the one that the [@validates] methods accepted:
    the function is called again. *)
Theorem C98_validated_refuted :
  ~ (forall E mood n cid vals out name f vs q, moody mood -> instance_of E cid vals ->
       t_struct_to_stream E mood n cid vals VNone 0 = (out, Ok tt) ->
       In (name, f) (k_comps (cls E cid)) -> c_discard (conf f) = false -> In (name, vs) (k_fvals (cls E cid)) -> In q vs ->
       exists all parts v s s', Forall2 (written_once E mood n VNone all) (k_comps (cls E cid)) parts /\ out = concat parts
         /\ dget all name = Some v /\ t_run_struct E mood n cid vals (q v) s = (s', Ok tt)).
Proof. exact fickle_refutes. Qed.
Print Assumptions C98_validated_refuted.

(** The hypotheses can be met: the fickle byte is dumped as 2, with a byte that is set. *)
Example C98_fickle : moody fickle_mood /\ instance_of fickle_env 0 [("y"%string, VInt 5)]
  /\ t_struct_to_stream fickle_env fickle_mood 5 0 [("y"%string, VInt 5)] VNone 0 = ([2; 5], Ok tt)
  /\ t_struct_to_stream fickle_env (fun _ c => c) 5 0 [("y"%string, VInt 5)] VNone 0 = ([1; 5], Ok tt)
  /\ struct_to_stream fickle_env 5 0 [("y"%string, VInt 5)] VNone = ([1; 5], Ok tt).
Proof. split; [exact fickle_moody|]. split; [exact fickle_instance|]. repeat split; vm_compute; reflexivity. Qed.
