(** C112: files with several structs. *)
From Coq Require Import String Lia.
From Verif Require Import SpecRecords RecordProofs RoundWitness Samples.
Open Scope list_scope.
Open Scope Z_scope.

(** Structs of any classes dumped one after the other are read back one after the other, each with the same
    data, wherever the file begins, and the stream is then behind the last one. *)
Theorem C112_read_back E l out : recorded E l out ->
  exists l', Forall2 (read_back E) l l'
    /\ forall ctx pre suf, exists N, forall n, (N <= n)%nat ->
         read_each E n (map fst l) ctx (at_data pre out suf) = (after_data pre out suf, Ok l').
Proof. exact (read_records E l out). Qed.
Print Assumptions C112_read_back.

(** Reading fewer ends where the next one begins, so that the others can be read later. *)
Theorem C112_some E l m out : recorded E (l ++ m) out ->
  exists o1 o2 l', out = o1 ++ o2 /\ recorded E m o2 /\ Forall2 (read_back E) l l'
    /\ forall ctx pre suf, exists N, forall n, (N <= n)%nat ->
         read_each E n (map fst l) ctx (at_data pre out suf) = (at_data (pre ++ o1) o2 suf, Ok l').
Proof. exact (read_first E l m out). Qed.
Print Assumptions C112_some.

(** Files can be appended to each other. *)
Theorem C112_append E l m o1 o2 : recorded E l o1 -> recorded E m o2 -> recorded E (l ++ m) (o1 ++ o2).
Proof. exact (recorded_join E l m o1 o2). Qed.
Print Assumptions C112_append.

(** The bytes determine the data of all of them. *)
Theorem C112_determined E l m out : map fst l = map fst m -> recorded E l out -> recorded E m out ->
  Forall2 (fun a b => same_data (VDict (snd a)) (VDict (snd b))) l m.
Proof. exact (records_determined E l m out). Qed.
Print Assumptions C112_determined.

(** The hypotheses can be met: two structs with a variable-length integer and a null-terminated string. *)
Example C112_two : recorded round_E [(1%nat, inner_val 300 [97; 98]); (1%nat, inner_val 5 [99])] [172; 2; 97; 98; 0; 5; 99; 0]
  /\ read_each round_E 9 [1%nat; 1%nat] VNone (mkStream [7; 172; 2; 97; 98; 0; 5; 99; 0; 8] 1)
     = (mkStream [7; 172; 2; 97; 98; 0; 5; 99; 0; 8] 9, Ok [(1%nat, inner_val 300 [97; 98]); (1%nat, inner_val 5 [99])])
  /\ read_each round_E 9 [1%nat] VNone (mkStream [172; 2; 97; 98; 0; 5; 99; 0] 0)
     = (mkStream [172; 2; 97; 98; 0; 5; 99; 0] 5, Ok [(1%nat, inner_val 300 [97; 98])]).
Proof.
  split; [|split; vm_compute; reflexivity].
  apply (recorded_cons round_E 9 1 (inner_val 300 [97; 98]) VNone [172; 2; 97; 98; 0] _ _ _ inner_instance inner_dump inner_to_dict inner_example).
  apply (recorded_cons round_E 9 1 (inner_val 5 [99]) VNone [5; 99; 0] (inner_val 5 [99]) [] []); [|vm_compute; reflexivity|vm_compute; reflexivity| |constructor].
  - split; [apply inner_straight|]. split; [repeat constructor; cbn; intuition discriminate|]. intros x. cbn. tauto.
  - apply inner_holds. repeat constructor; discriminate.
Qed.
