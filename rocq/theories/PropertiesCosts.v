(** C100: how often compute, [present] and factory functions are called. *)
From Coq Require Import String Lia.
From Verif Require Import SpecCosts CostProofs.
Open Scope list_scope.

(** If all values are set, validating and converting a struct takes two evaluations for each
    field at most, whatever its validators read ... *)
Theorem C100_set_values E mood n cid vals t : moody mood -> instance_of E cid vals -> all_set E cid vals ->
  (t <= fst ((tdo _ <- t_validate_contents E mood n cid vals; t_to_dict E mood n cid vals false) t) <= t + 2 * length (k_comps (cls E cid)))%nat.
Proof. exact (fun Hm Hi Hs => few E mood n cid vals Hm Hi Hs t). Qed.
Print Assumptions C100_set_values.

(** ... and writing each field takes two more at most, always. *)
Theorem C100_written mood d c ctx t : (t <= fst (t_compute_value mood (t_run_dict d) (t_run_dict d) c ctx t) <= t + 2)%nat.
Proof. exact (few_written mood d c ctx t). Qed.
Print Assumptions C100_written.

(** But computed values are computed again each time they are read, so the number of calls can
    grow exponentially with the number of fields: with m + 1 fields that each read the one before
    twice, validation alone takes 2 ^ (m + 2) - 2 or more. *)
Theorem C100_exponential m n t : (S m < n)%nat ->
  length (k_comps (cls (chain_env (S m)) 0)) = S m /\ instance_of (chain_env (S m)) 0 []
  /\ exists t', t_validate_contents (chain_env (S m)) steadily n 0 [] t = (t', Ok tt) /\ (t + 2 ^ (m + 2) <= t' + 2)%nat.
Proof. exact (fun H => conj (chain_count m) (conj (chain_instance m) (chain_slow m n t H))). Qed.
Print Assumptions C100_exponential.

(** The hypotheses can be met; and a chain of three bytes is dumped, after 22 evaluations of the
    compute and [present] functions in validation. *)
Example C100_chain_dumped : struct_to_stream (chain_env 3) 5 0 [] VNone = ([0; 0; 0]%Z, Ok tt)
  /\ t_validate_contents (chain_env 3) steadily 5 0 [] 0%nat = (22%nat, Ok tt).
Proof. vm_compute. auto. Qed.
Example C100_set_nonvacuous : let vals := [(xs 0, VInt 1); (xs 1, VInt 2)] in
  instance_of (chain_env 2) 0 vals /\ all_set (chain_env 2) 0 vals
  /\ fst ((tdo _ <- t_validate_contents (chain_env 2) steadily 5 0 vals; t_to_dict (chain_env 2) steadily 5 0 vals false) 0%nat) = 4%nat.
Proof. exact chain_set. Qed.
