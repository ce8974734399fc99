(** Property theorems: structs written and read in part (C89).  Specification vocabulary:
    SpecStage.v. *)
From Coq Require Import String ZArith List.
From Verif Require Import StageWitness.
Import ListNotations.
Open Scope string_scope.
Open Scope list_scope.
Open Scope Z_scope.

(** C89: what partial_dump writes up to a field, partial_load reads up to that field, whatever
    follows ([last]: an array may extend to the end if nothing follows). *)
Theorem C89_up_to_field : forall E n cid vals name ctx out last, well_formed (cls E cid) ->
  partial_dump E n cid vals (Some name) ctx = (out, Ok tt) ->
  forall fs f post, k_comps (cls E cid) = fs ++ (name, f) :: post -> alone E last vals (fs ++ [(name, f)]) ->
  exists vals', reads_back E vals (fs ++ [(name, f)]) vals' /\ forall ctx' pre suf, (last = true -> suf = []) ->
    exists N, forall n', (N <= n')%nat ->
      partial_load E n' cid (Some name) ctx' (at_data pre out suf) = (after_data pre out suf, Ok vals').
Proof. exact stage_last. Qed.
Print Assumptions C89_up_to_field.

(** Without a last field partial_dump stops at the first field without a value, and partial_load
    returns exactly the fields before it, if that field cannot be read from no data. *)
Theorem C89_incomplete : forall E n cid vals ctx out last, well_formed (cls E cid) ->
  partial_dump E n cid vals None ctx = (out, Ok tt) ->
  exists fs post, k_comps (cls E cid) = fs ++ post
    /\ (forall nf, In nf fs -> exists v, own_value vals (fst nf) (conf (snd nf)) v)
    /\ match post with [] => True | (name, f) :: _ => own_value vals name (conf f) VUndefined end
    /\ (alone E last vals fs -> match post with [] => True | (_, f) :: _ => needs_data E f end ->
        exists vals', reads_back E vals fs vals' /\ forall ctx' pre, exists N, forall n', (N <= n')%nat ->
          partial_load E n' cid None ctx' (at_data pre out []) = (after_data pre out [], Ok vals')).
Proof. exact stage_none. Qed.
Print Assumptions C89_incomplete.

(** When the missing values become known and the struct is dumped, the dump begins with what
    partial_dump wrote. *)
Theorem C89_completed : forall E n cid vals vals2 last ctx out full, instance_of E cid vals2 -> plain_data vals2 ->
  (forall name f, In (name, f) (k_comps (cls E cid)) -> simple f /\ self_contained E f) ->
  (forall l, last = Some l -> In l (map fst (k_comps (cls E cid)))) ->
  (forall name f v, In (name, f) (k_comps (cls E cid)) -> own_value vals name (conf f) v -> v <> VUndefined ->
     own_value vals2 name (conf f) v) ->
  partial_dump E n cid vals last ctx = (out, Ok tt) ->
  struct_to_stream E n cid vals2 ctx = (full, Ok tt) -> exists suffix, full = out ++ suffix.
Proof. exact completed. Qed.
Print Assumptions C89_completed.

(** A field that can be read from no data is returned although it was not dumped. *)
Theorem C89_end_refuted : exists E n cid vals out vals', well_formed (cls E cid)
  /\ partial_dump E n cid vals None VNone = (out, Ok tt)
  /\ partial_load E n cid None VNone (at_data [] out []) = (after_data [] out [], Ok vals')
  /\ length vals' <> length vals.
Proof.
  destruct open_dumps as [H1 H2]. exists open_E, 9%nat, 0%nat. do 3 eexists. split; [|split; [exact H1|]].
  - split; [repeat constructor; cbn; intuition discriminate|].
    split; [repeat constructor|]. intros x. cbn. tauto.
  - split; [exact H2|]. discriminate.
Qed.
Print Assumptions C89_end_refuted.

Example C89_example : well_formed (cls stage_E 0)
  /\ partial_dump stage_E 9 0 stage_vals None VNone = ([7; 1; 2; 3; 5; 104; 105; 0], Ok tt)
  /\ (forall last, alone stage_E last stage_vals stage_first)
  /\ needs_data stage_E (Field (basic "id" (SInt 16)) (KUuid BINARY_VARIANT_1))
  /\ partial_load stage_E 9 0 None VNone (at_data [] [7; 1; 2; 3; 5; 104; 105; 0] [])
     = (after_data [] [7; 1; 2; 3; 5; 104; 105; 0] [], Ok stage_loaded)
  /\ instance_of stage_E 0 stage_all /\ plain_data stage_all
  /\ (forall name f, In (name, f) (k_comps (cls stage_E 0)) -> simple f /\ self_contained stage_E f)
  /\ (forall name f v, In (name, f) (k_comps (cls stage_E 0)) -> own_value stage_vals name (conf f) v ->
        v <> VUndefined -> own_value stage_all name (conf f) v)
  /\ struct_to_stream stage_E 9 0 stage_all VNone
     = ([7; 1; 2; 3; 5; 104; 105; 0] ++ repeat 0 15 ++ [255; 9], Ok tt).
Proof.
  destruct stage_dumps as (H1 & _ & H2 & H3).
  exact (conj stage_wf (conj H1 (conj stage_alone (conj stage_needs (conj H2 (conj stage_all_instance
    (conj stage_all_plain (conj stage_simple (conj stage_keeps H3))))))))).
Qed.
