(** C111: round trips when computing functions and factories answer differently each time. *)
From Coq Require Import String Lia.
From Verif Require Import SpecCalm CalmProofs CalmWitness Samples.
Open Scope list_scope.
Open Scope Z_scope.

(** If the fields with such functions are set, it does not matter what the functions answer. *)
Theorem C111_set_dump E mood n cid vals ctx t : moody mood -> presence_settled mood -> instance_of E cid vals -> all_set E cid vals ->
  t_struct_to_stream E mood n cid vals ctx t = struct_to_stream E n cid vals ctx.
Proof. exact (fun Hm Hp Hi Hs => calm_struct E mood Hm Hp cid vals Hi Hs n ctx t). Qed.
Print Assumptions C111_set_dump.
Theorem C111_set_to_dict E mood n cid vals keep t : moody mood -> presence_settled mood -> instance_of E cid vals -> all_set E cid vals ->
  snd (t_to_dict E mood n cid vals keep t) = to_dict E n cid vals keep.
Proof. exact (fun Hm Hp Hi Hs => calm_to_dict E mood Hm Hp cid vals Hi Hs n keep t). Qed.
Print Assumptions C111_set_to_dict.

(** Nor does it matter to loading. *)
Theorem C111_load E mood n cid ctx t s : presence_settled mood -> well_formed (cls E cid) ->
  snd (t_struct_from_stream E mood n cid ctx [] t s) = struct_from_stream E n cid ctx [] s.
Proof. exact (fun Hp => settled_load E mood Hp n cid ctx t s). Qed.
Print Assumptions C111_load.

(** What is loaded, at any time, is what was dumped: the dictionary of values on which the dump settled.
    All fields of the loaded struct are set, so that by the above its data does not change any more. *)
Theorem C111_round_trip E mood n last cid vals ctx t bs t1 t2 d : moody mood -> presence_settled mood ->
  t_struct_to_stream E mood n cid vals ctx t = (bs, Ok tt) ->
  t_validate_contents E mood n cid vals t = (t1, Ok tt) -> t_to_dict E mood n cid vals false t1 = (t2, Ok d) -> holds_struct E last cid d ->
  exists vals' d', instance_of E cid vals' /\ all_set E cid vals' /\ same_data (VDict d) (VDict d')
    /\ (forall t' ctx' pre suf, (last = true -> suf = []) -> exists N, forall n', (N <= n')%nat ->
          snd (t_struct_from_stream E mood n' cid ctx' [] t' (at_data pre bs suf)) = (after_data pre bs suf, Ok vals'))
    /\ exists N, forall n' t', (N <= n')%nat -> snd (t_to_dict E mood n' cid vals' false t') = Ok d'.
Proof. exact (fun Hm Hp => moody_roundtrip E mood Hm Hp n last cid vals ctx t bs t1 t2 d). Qed.
Print Assumptions C111_round_trip.

(** A struct dumped twice need not give the same bytes if a computed field is not set, or is discarded. *)
Theorem C111_unset_refuted : ~ (forall E mood n cid vals ctx t t', moody mood -> presence_settled mood -> instance_of E cid vals ->
  t_struct_to_stream E mood n cid vals ctx t = t_struct_to_stream E mood n cid vals ctx t').
Proof. exact unset_refuted. Qed.
Print Assumptions C111_unset_refuted.
Theorem C111_discarded_refuted : ~ (forall E mood n cid vals ctx t t', moody mood -> presence_settled mood -> instance_of E cid vals ->
  (forall name f, In (name, f) (k_comps (cls E cid)) -> exists v, dget vals name = Some v /\ v <> VUndefined) ->
  t_struct_to_stream E mood n cid vals ctx t = t_struct_to_stream E mood n cid vals ctx t').
Proof. exact set_discarded_refuted. Qed.
Print Assumptions C111_discarded_refuted.

(** The hypotheses can be met: a ticket gets a new number when it is dumped, and keeps it after loading. *)
Example C111_ticket : moody ticket_mood /\ presence_settled ticket_mood /\ instance_of ticket_E 0 ticket_vals
  /\ instance_of ticket_E 0 (ticket_dict 2) /\ all_set ticket_E 0 (ticket_dict 2) /\ holds_struct ticket_E false 0 (ticket_shown 2)
  /\ t_validate_contents ticket_E ticket_mood 5 0 ticket_vals 0%nat = (2%nat, Ok tt)
  /\ t_to_dict ticket_E ticket_mood 5 0 ticket_vals false 2%nat = (6%nat, Ok (ticket_shown 2))
  /\ t_struct_to_stream ticket_E ticket_mood 5 0 ticket_vals VNone 0 = ([2; 9], Ok tt)
  /\ t_struct_to_stream ticket_E ticket_mood 5 0 ticket_vals VNone 20 = ([22; 9], Ok tt)
  /\ t_struct_from_stream ticket_E ticket_mood 5 0 VNone [] 50 (mkStream [2; 9] 0) = (52%nat, (mkStream [2; 9] 2, Ok (ticket_dict 2)))
  /\ t_struct_to_stream ticket_E ticket_mood 5 0 (ticket_dict 2) VNone 60 = ([2; 9], Ok tt).
Proof.
  exact (conj ticket_moody (conj ticket_settled (conj (ticket_instance _ (or_introl eq_refl)) (conj (ticket_instance _ (or_intror (ex_intro _ 2 eq_refl)))
    (conj (ticket_set 2) (conj (ticket_holds 2 ltac:(lia)) ticket_dumps)))))).
Qed.
