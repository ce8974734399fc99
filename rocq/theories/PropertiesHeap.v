(** C93: which objects are shared between instances, dictionaries and classes. *)
From Coq Require Import String List Lia.
From Verif Require Import SpecHeap HeapProofs.
Open Scope string_scope.
Open Scope list_scope.
Open Scope Z_scope.

(** to_dict changes no object that existed before, even if it fails, ... *)
Theorem C93_to_dict_only_adds classes n h o h' r : good_heap classes h -> ref_ok h o -> to_dicts classes n h o = (h', r) ->
  (forall a, (a < length h)%nat -> nth_error h' a = nth_error h a) /\ forall m x, ref_ok h x -> view m h' x = view m h x.
Proof. exact (to_dict_only_adds classes n h o h' r). Qed.
Print Assumptions C93_to_dict_only_adds.

(** ... its result does not change with any older object, bytearrays apart, ... *)
Theorem C93_to_dict_snapshot classes n h o h' r a c : good_heap classes h -> ref_ok h o -> to_dicts classes n h o = (h', Ok r) ->
  (a < length h)%nat -> (forall b, nth_error h a <> Some (CBuf b)) ->
  forall m, view m (update h' a c) r = view m h' r.
Proof. exact (to_dict_snapshot classes n h o h' r a c). Qed.
Print Assumptions C93_to_dict_snapshot.

(** ... nor they with it, however deep inside it is changed. *)
Theorem C93_to_dict_detached classes n h o h' r a c : good_heap classes h -> ref_ok h o -> to_dicts classes n h o = (h', Ok r) ->
  reach h' r a -> (forall b, nth_error h' a <> Some (CBuf b)) ->
  forall m x, ref_ok h x -> view m (update h' a c) x = view m h x.
Proof. exact (to_dict_detached classes n h o h' r a c). Qed.
Print Assumptions C93_to_dict_detached.

(** The result contains no struct at any depth. *)
Theorem C93_to_dict_plain classes n h o h' r : good_heap classes h -> ref_ok h o -> to_dicts classes n h o = (h', Ok r) -> no_structs h' r.
Proof. exact (to_dict_no_structs classes n h o h' r). Qed.
Print Assumptions C93_to_dict_plain.

(** Objects without structs are copied as they are: this ends, and the copy has the same value. *)
Theorem C93_copies classes n h o v : good_heap classes h -> ref_ok h o -> no_structs h o -> view n h o = Some v ->
  exists h' o', to_dicts classes n h o = (h', Ok o') /\ view n h' o' = Some v.
Proof. exact (to_dicts_copies classes n h o v). Qed.
Print Assumptions C93_copies.

(** The dictionary of a struct has its fields, without those discarded, in order, ... *)
Theorem C93_to_dict_keys classes n h a cid values h' r : good_heap classes h -> nth_error h a = Some (CStruct cid values) ->
  to_dicts classes n h (ORef a) = (h', Ok r) ->
  exists b items, r = ORef b /\ nth_error h' b = Some (CDict items)
    /\ map fst items = map hf_name (filter (fun f => negb (hf_discard f)) (classes cid)).
Proof. exact (to_dict_keys classes n h a cid values h' r). Qed.
Print Assumptions C93_to_dict_keys.

(** ... and what is stored in a field is converted in turn: without structs in it, it is equal. *)
Theorem C93_to_dict_entry classes n h a cid values h' r f o : good_heap classes h -> nth_error h a = Some (CStruct cid values) ->
  NoDup (map hf_name (classes cid)) -> to_dicts classes (S n) h (ORef a) = (h', Ok r) ->
  In f (classes cid) -> hf_discard f = false -> assoc values (hf_name f) = Some o -> undefined o = false -> not_present o = false ->
  (forall h, hf_present f h a = true) ->
  exists b items new h2 o' rest, r = ORef b /\ nth_error h' b = Some (CDict items) /\ assoc items (hf_name f) = Some o'
    /\ to_dicts classes n (h ++ new) o = (h2, Ok o') /\ h' = h2 ++ rest
    /\ (forall v, no_structs h o -> view n h o = Some v -> view n h' o' = Some v).
Proof. exact (to_dict_entry classes n h a cid values h' r f o). Qed.
Print Assumptions C93_to_dict_entry.

(** The object of a field is the one stored, else the default, else what is computed; without
    any, the field is missing. *)
Theorem C93_objects f h a values h1 r : value_for_dump f h a values = (h1, r) <->
  exists o, given f h a values h1 o /\ dumped_as f h1 a o r.
Proof. exact (value_for_dump_iff f h a values h1 r). Qed.
Print Assumptions C93_objects.

Theorem C93_attribute_set f h a cid values o : nth_error h a = Some (CStruct cid values) -> assoc values (hf_name f) = Some o ->
  attribute f h a = (h, Ok o).
Proof. exact (attribute_set f h a cid values o). Qed.
Print Assumptions C93_attribute_set.

Theorem C93_attribute_unset f h a cid values h1 r : nth_error h a = Some (CStruct cid values) -> assoc values (hf_name f) = None ->
  (attribute f h a = (h1, r) <-> exists o, given f h a values h1 o /\ dumped_as f h1 a o r).
Proof. exact (attribute_unset f h a cid values h1 r). Qed.
Print Assumptions C93_attribute_unset.

(** Every entry of the dictionary is the conversion of that object. *)
Theorem C93_to_dict_every_entry classes n h a cid values h' r f : good_heap classes h -> nth_error h a = Some (CStruct cid values) ->
  NoDup (map hf_name (classes cid)) -> to_dicts classes (S n) h (ORef a) = (h', Ok r) ->
  In f (classes cid) -> hf_discard f = false ->
  exists b items o' new1 h1 o0 o new2 h2 rest,
    r = ORef b /\ nth_error h' b = Some (CDict items) /\ assoc items (hf_name f) = Some o'
    /\ given f (h ++ new1) a values h1 o0 /\ dumped_as f h1 a o0 (Ok o)
    /\ to_dicts classes n (h1 ++ new2) o = (h2, Ok o') /\ h' = h2 ++ rest.
Proof. exact (to_dict_every_entry classes n h a cid values h' r f). Qed.
Print Assumptions C93_to_dict_every_entry.

(** Assigning to a field changes this field of this instance and nothing else. *)
Theorem C93_assignment f h a o h' : set_attribute f h a o = (h', Ok tt) ->
  attribute f h' a = (h', Ok o)
  /\ (forall g cid values x, nth_error h a = Some (CStruct cid values) -> hf_name g <> hf_name f -> assoc values (hf_name g) = Some x ->
        attribute g h' a = (h', Ok x))
  /\ (forall b, b <> a -> nth_error h' b = nth_error h b)
  /\ (forall m x, ~ reach h x a -> view m h' x = view m h x).
Proof. exact (set_effect f h a o h'). Qed.
Print Assumptions C93_assignment.

Theorem C93_assignment_accepted f h a o cid values : hf_compute f = None -> hf_const f = false ->
  nth_error h a = Some (CStruct cid values) -> exists h', set_attribute f h a o = (h', Ok tt).
Proof. exact (set_accepted f h a o cid values). Qed.
Print Assumptions C93_assignment_accepted.

Theorem C93_assignment_refused f h a o : hf_compute f <> None \/ hf_const f = true ->
  set_attribute f h a o = (h, Raise (EImmutable (Some (hf_name f)))).
Proof. exact (set_refused f h a o). Qed.
Print Assumptions C93_assignment_refused.

(** Deleting an item brings back the default, and leaves the rest alone. *)
Theorem C93_deletion f h a cid values : nth_error h a = Some (CStruct cid values) ->
  undefined (hf_default f) = false -> not_present (hf_default f) = false -> (forall h, hf_present f h a = true) ->
  attribute f (delete_item f h a) a = (delete_item f h a, Ok (hf_default f))
  /\ forall g x, hf_name g <> hf_name f -> assoc values (hf_name g) = Some x -> attribute g (delete_item f h a) a = (delete_item f h a, Ok x).
Proof. exact (delete_effect f h a cid values). Qed.
Print Assumptions C93_deletion.

Theorem C93_deletion_local f h a m x : ~ reach h x a -> view m (delete_item f h a) x = view m h x.
Proof. exact (delete_local f h a m x). Qed.
Print Assumptions C93_deletion_local.

(** Instances that share no object do not influence each other's values. *)
Theorem C93_separate_instances h x y a c m : (forall b, reach h x b -> reach h y b -> False) -> reach h x a ->
  view m (update h a c) y = view m h y.
Proof. exact (separate_instances h x y a c m). Qed.
Print Assumptions C93_separate_instances.

(** The constructor stores the very objects it is given, ... *)
Theorem C93_constructor_shares h cid values h' r f o : new_struct h cid values = (h', r) -> assoc values (hf_name f) = Some o ->
  exists a, r = ORef a /\ length h = a /\ attribute f h' a = (h', Ok o).
Proof. exact (new_struct_fields h cid values h' r f o). Qed.
Print Assumptions C93_constructor_shares.

(** ... and a field that is not set is the default itself, in every instance. *)
Theorem C93_default_shared f h a cid values : nth_error h a = Some (CStruct cid values) -> assoc values (hf_name f) = None ->
  undefined (hf_default f) = false -> not_present (hf_default f) = false -> hf_present f h a = true ->
  attribute f h a = (h, Ok (hf_default f)).
Proof. exact (attribute_default f h a cid values). Qed.
Print Assumptions C93_default_shared.

(** ** A class with the list at address 0 as a default, and a constant *)

Definition always_here (h : heap) (a : nat) := true.
Definition plain name := mkHField name (OVal VUndefined) None always_here false false.
Definition tags := mkHField "tags" (ORef 0%nat) None always_here false false.
Definition magic := mkHField "magic" (ORef 0%nat) None always_here true false.
Definition unused := mkHField "unused" (OVal (VInt 0)) None always_here false true.
Definition sample (cid : nat) : list hfield :=
  match cid with 0%nat => [plain "n"; tags; plain "sub"; unused] | 1%nat => [magic] | _ => [] end.

(** 0: the default; 1: a list with the bytearray 2 in it; 3: the struct; 4: the one inside it, with
    nothing set; 5: another instance *)
Definition store0 : heap :=
  [CList [OVal (VInt 7)]; CList [OVal (VInt 1); ORef 2%nat]; CBuf [1; 2];
   CStruct 0%nat [("n", ORef 1%nat); ("sub", ORef 4%nat)]; CStruct 1%nat []; CStruct 0%nat [("n", OVal (VInt 1))]].

Example C93_nonvacuous :
  good_heap sample store0
  /\ exists h' r, to_dicts sample 9 store0 (ORef 3%nat) = (h', Ok r)
     /\ view 9 h' r = Some (VDict [("n", VList [VInt 1; VBytes [1; 2]]); ("tags", VList [VInt 7]); ("sub", VDict [("magic", VList [VInt 7])])])
     /\ view 9 (update h' 0 (CList [])) r = view 9 h' r.
Proof.
  split.
  - split.
    + intros c Hc o Ho. unfold store0 in Hc. cbn [In] in Hc.
      repeat destruct Hc as [<-|Hc]; try contradiction; cbn in Ho; repeat destruct Ho as [<-|Ho]; try contradiction; cbn; auto; lia.
    + intros [|[|cid]] f Hf; cbn [sample In] in Hf; repeat destruct Hf as [<-|Hf]; try contradiction;
        (split; [intros fn Hfn; discriminate Hfn|cbn; auto; lia]).
  - eexists _, _. split; [vm_compute; reflexivity|]. vm_compute. auto.
Qed.

(** ** What does not hold *)

(** Violated: the dictionary is independent of the struct even if there are bytearrays in it. *)
Theorem C93_bytearray_snapshot_refuted :
  ~ (forall classes n h o h' r a c m, good_heap classes h -> ref_ok h o -> to_dicts classes n h o = (h', Ok r) ->
       (a < length h)%nat -> view m (update h' a c) r = view m h' r).
Proof.
  intros H. destruct C93_nonvacuous as (Hg & h' & r & E & Hv & _).
  specialize (H sample 9%nat store0 (ORef 3%nat) h' r 2%nat (CBuf []) 9%nat Hg).
  rewrite Hv in H. vm_compute in E. injection E as <- <-. vm_compute in H.
  assert (Hs : Some (VDict [("n", VList [VInt 1; VBytes []]); ("tags", VList [VInt 7]); ("sub", VDict [("magic", VList [VInt 7])])])
             = Some (VDict [("n", VList [VInt 1; VBytes [1; 2]]); ("tags", VList [VInt 7]); ("sub", VDict [("magic", VList [VInt 7])])])).
  { apply H; auto; lia. }
  discriminate.
Qed.
Print Assumptions C93_bytearray_snapshot_refuted.

(** Violated: an instance does not change with the objects given to its constructor. *)
Theorem C93_constructor_copies_refuted :
  ~ (forall h cid values h' r a c m, closed_heap h -> (forall o, In o (map snd values) -> ref_ok h o) ->
       new_struct h cid values = (h', r) -> (a < length h)%nat -> view m (update h' a c) r = view m h' r).
Proof.
  intros H. specialize (H store0 0%nat [("n", ORef 1%nat)] (store0 ++ [CStruct 0%nat [("n", ORef 1%nat)]]) (ORef 6%nat) 1%nat (CList []) 9%nat (proj1 (proj1 C93_nonvacuous))).
  assert (Hr : forall o, In o (map snd [("n", ORef 1%nat)]) -> ref_ok store0 o) by (intros o [<-|[]]; cbn; lia).
  specialize (H Hr eq_refl ltac:(cbn; lia)). vm_compute in H. discriminate.
Qed.
Print Assumptions C93_constructor_copies_refuted.

(** Violated: instances that share nothing are independent of each other, although changing what
    one gives for a field changes what the other gives. *)
Theorem C93_instances_independent_refuted :
  ~ (forall h f a1 a2 o1 o2 b c m, closed_heap h -> (forall x, reach h (ORef a1) x -> reach h (ORef a2) x -> False) ->
       attribute f h a1 = (h, Ok o1) -> attribute f h a2 = (h, Ok o2) ->
       reach h o1 b -> view m (update h b c) o2 = view m h o2).
Proof.
  intros H. specialize (H store0 tags 3%nat 5%nat (ORef 0%nat) (ORef 0%nat) 0%nat (CList []) 9%nat (proj1 (proj1 C93_nonvacuous))).
  assert (Hsep : forall x, reach store0 (ORef 3) x -> reach store0 (ORef 5) x -> False).
  { intros x H3 H5. inversion H5 as [|? c5 o5 ? Hn5 Hin5 Hr5]; subst.
    - inversion H3 as [|? c o ? Hn Hin Hr]; subst. injection Hn as <-. destruct Hin as [<-|[<-|[]]].
      + inversion Hr as [|? c o ? Hn Hin Hr']; subst. injection Hn as <-. destruct Hin as [<-|[<-|[]]]; [inversion Hr'|].
        inversion Hr' as [|? c o ? Hn Hin Hr'']; subst. injection Hn as <-. destruct Hin.
      + inversion Hr as [|? c o ? Hn Hin Hr']; subst. injection Hn as <-. destruct Hin.
    - injection Hn5 as <-. destruct Hin5 as [<-|[]]. inversion Hr5. }
  specialize (H Hsep eq_refl eq_refl (reach_here _ _)). vm_compute in H. discriminate.
Qed.
Print Assumptions C93_instances_independent_refuted.

(** Violated: a constant cannot be changed through an instance. *)
Theorem C93_constant_fixed_refuted :
  ~ (forall h f a o b c m, closed_heap h -> hf_const f = true -> attribute f h a = (h, Ok o) -> reach h o b ->
       view m (update h b c) (hf_default f) = view m h (hf_default f)).
Proof.
  intros H. specialize (H store0 magic 4%nat (ORef 0%nat) 0%nat (CList []) 9%nat (proj1 (proj1 C93_nonvacuous)) eq_refl eq_refl (reach_here _ _)).
  vm_compute in H. discriminate.
Qed.
Print Assumptions C93_constant_fixed_refuted.
