(** C107: struct classes with constructors of their own ([init_kwargs], structures.py:474-517).

    Vocabulary: SpecConstructors.v ([takes_arguments] - the constructor has further arguments, required
    and optional ones, that are not fields - , [own_constructors_on_top] - no field constructs a class
    with a constructor of its own - , [unaware] - the fields do not look at some entries). *)
From Coq Require Import String Lia List.
From Verif Require Import SpecConstructors SpecScribbles ConstructorProofs ConstructorWitness Samples.
Import ListNotations.
Open Scope list_scope.
Open Scope Z_scope.

(** If every class has [Struct]'s constructor, everything is loaded and dumped as before. *)
Theorem C107_ordinary E K n cid f v vals name last ctx kw d s : (forall c, ordinary E K c) ->
  k_struct_from_stream E K n cid ctx kw s = struct_from_stream E n cid ctx kw s
  /\ k_field_from_stream E K n f ctx d s = field_from_stream E n f ctx d s
  /\ k_partial_load E K n cid last ctx s = partial_load E n cid last ctx s
  /\ k_get_field E K n cid name ctx s = get_field E n cid name ctx s
  /\ k_struct_to_stream E K n cid vals ctx = struct_to_stream E n cid vals ctx
  /\ k_field_to_stream E K n f v ctx d = field_to_stream E n f v ctx d.
Proof.
  exact (fun H => conj (ordinary_struct_load E K n cid ctx kw s (ordinary_on_top E K H) (H cid))
    (conj (on_top_field_load E K (ordinary_on_top E K H) n f ctx d s (ordinary_constructs E K H f))
    (conj (ordinary_partial E K n cid last ctx s (ordinary_on_top E K H) (H cid))
    (conj (ordinary_get E K n cid name ctx s (ordinary_on_top E K H) (H cid))
    (conj (on_top_struct_dump E K (ordinary_on_top E K H) n cid vals ctx)
      (on_top_field_dump E K (ordinary_on_top E K H) n f v ctx d (ordinary_constructs E K H f))))))).
Qed.
Print Assumptions C107_ordinary.

(** Constructors of classes that are not contained in others change neither how fields are loaded and
    dumped nor how instances are dumped. *)
Theorem C107_on_top E K n cid f v vals ctx d s : own_constructors_on_top E K ->
  k_struct_to_stream E K n cid vals ctx = struct_to_stream E n cid vals ctx
  /\ (constructs (ordinary E K) f -> k_field_to_stream E K n f v ctx d = field_to_stream E n f v ctx d
      /\ k_field_from_stream E K n f ctx d s = field_from_stream E n f ctx d s).
Proof.
  exact (fun H => conj (on_top_struct_dump E K H n cid vals ctx)
    (fun Hf => conj (on_top_field_dump E K H n f v ctx d Hf) (on_top_field_load E K H n f ctx d s Hf))).
Qed.
Print Assumptions C107_on_top.

(** Whatever the constructor does: it gets all of [init_kwargs] as they are and a value for every field;
    what it stores is validated, and discarded fields are taken out of it. *)
Theorem C107_constructed E K n cid ctx kw s s' vals : k_struct_from_stream E K n cid ctx kw s = (s', Ok vals) ->
  exists results stored, (forall x v, dget kw x = Some v -> dget results x = Some v)
    /\ (forall x, In x (dkeys results) <-> In x (dkeys kw) \/ In x (map fst (k_comps (cls E cid))))
    /\ K cid results = Ok stored /\ validated E n cid stored /\ vals = delete_discard (k_comps (cls E cid)) stored.
Proof. exact (constructor_gets E K n cid ctx kw s s' vals). Qed.
Print Assumptions C107_constructed.

(** A class with further arguments is loaded with [init_kwargs] containing them as an ordinary class is
    with the rest of [init_kwargs]. *)
Theorem C107_init_kwargs E K n cid required optional ctx kw s :
  own_constructors_on_top E K -> takes_arguments E K cid required optional -> incl required (dkeys kw) ->
  unaware E n cid (required ++ optional) ->
  k_struct_from_stream E K n cid ctx kw s = struct_from_stream E n cid ctx (without (required ++ optional) kw) s.
Proof. exact (extra_arguments E K n cid required optional ctx kw s). Qed.
Print Assumptions C107_init_kwargs.

(** Fields that contain no others notice further arguments only if their [present] function looks or
    their size refers to one. *)
Theorem C107_unaware E n f names ctx d s : lone_kind (kind f) ->
  (forall x, c_size (conf f) = SRef x -> ~ In x names) -> (forall x, c_name (conf f) = Some x -> ~ In x names) ->
  run_dict d (c_present (conf f) ctx (Some s)) = run_dict (without names d) (c_present (conf f) ctx (Some s)) ->
  field_from_stream E n f ctx d s = field_from_stream E n f ctx (without names d) s.
Proof. exact (leaf_unaware E n f names ctx d s). Qed.
Print Assumptions C107_unaware.

(** Without a required argument loading fails with a TypeError, but only after all fields were read. *)
Theorem C107_missing E K n cid required optional x ctx kw s s1 results : takes_arguments E K cid required optional ->
  In x required -> ~ In x (dkeys kw) ->
  k_load_fields E K (k_do_load E K n) n (comps E cid) ctx kw s = (s1, Ok results) ->
  k_struct_from_stream E K n cid ctx kw s = (s1, Raise ETypeErr).
Proof. exact (missing_argument E K n cid required optional x ctx kw s s1 results). Qed.
Print Assumptions C107_missing.

(** Nested and Union fields, partial_load and get_field pass no further arguments: none of them can
    load a class that requires one. *)
Theorem C107_nested_fails E K n c cid required optional x ctx d s s' v : takes_arguments E K cid required optional ->
  In x required -> k_do_load E K n (Field c (KNested cid)) ctx d s <> (s', Ok v).
Proof. exact (nested_never E K n c cid required optional x ctx d s s' v). Qed.
Print Assumptions C107_nested_fails.

Theorem C107_union_fails E K n c choices ld dmp cid i required optional x ctx d s s' v :
  takes_arguments E K cid required optional -> In x required ->
  ld s ctx d = Ok i -> nth_error choices i = Some (CStruct cid) ->
  k_do_load E K n (Field c (KUnion choices ld dmp)) ctx d s <> (s', Ok v).
Proof. exact (union_never E K n c choices ld dmp cid i required optional x ctx d s s' v). Qed.
Print Assumptions C107_union_fails.

Theorem C107_partial_fails E K n cid required optional x last ctx s s' vals : takes_arguments E K cid required optional ->
  In x required -> well_formed (cls E cid) -> k_partial_load E K n cid last ctx s <> (s', Ok vals).
Proof. exact (partial_never E K n cid required optional x last ctx s s' vals). Qed.
Print Assumptions C107_partial_fails.

Theorem C107_get_field_fails E K n cid required optional x name f ctx s s' v : takes_arguments E K cid required optional ->
  In x required -> well_formed (cls E cid) -> assoc (k_comps (cls E cid)) name = Some f -> c_offset (conf f) = None ->
  k_get_field E K n cid name ctx s <> (s', Ok v).
Proof. exact (get_never E K n cid required optional x name f ctx s s' v). Qed.
Print Assumptions C107_get_field_fails.

(** A Nested field alone dumps an instance without constructing anything, and a dictionary if it
    contains the required arguments besides fields. *)
Theorem C107_instance E K n c cid cid' vals ctx d out : accepts c (VStruct cid' vals) ->
  k_field_to_stream E K (S n) (Field c (KNested cid)) (VStruct cid' vals) ctx d = (out, Ok tt)
  <-> k_struct_to_stream E K n cid' vals ctx = (out, Ok tt) /\ fits_size c d out.
Proof. exact (k_nested_instance E K n c cid cid' vals ctx d out). Qed.
Print Assumptions C107_instance.

Theorem C107_dict E K n c cid required optional dct ctx d out : takes_arguments E K cid required optional ->
  accepts c (VDict dct) ->
  k_field_to_stream E K (S n) (Field c (KNested cid)) (VDict dct) ctx d = (out, Ok tt)
  <-> incl required (dkeys dct)
      /\ (forall x, In x (dkeys dct) -> In x (required ++ optional) \/ In x (map fst (k_comps (cls E cid))))
      /\ k_struct_to_stream E K n cid (without (required ++ optional) dct) ctx = (out, Ok tt) /\ fits_size c d out.
Proof. exact (dict_arguments E K n c cid required optional dct ctx d out). Qed.
Print Assumptions C107_dict.

(** Inside a struct an instance becomes the dictionary of its fields, which is not enough to construct
    it again: a struct that contains one cannot be dumped. *)
Theorem C107_nested_dump_fails E K n cid vals ctx out name c inner cid' nv required optional x :
  takes_arguments E K inner required optional -> In x required -> instance_of E cid vals ->
  In (name, Field c (KNested inner)) (k_comps (cls E cid)) -> unconditional c -> c_discard c = false ->
  dget vals name = Some (VStruct cid' nv) -> instance_of E cid' nv -> ~ In x (map fst (k_comps (cls E cid'))) ->
  k_struct_to_stream E K n cid vals ctx <> (out, Ok tt).
Proof. exact (nested_dump_never E K n cid vals ctx out name c inner cid' nv required optional x). Qed.
Print Assumptions C107_nested_dump_fails.

(** Refuted: that a class that can be loaded can be loaded where it is nested. *)
Theorem C107_nested_refuted : ~ (forall E K n cid kw ctx s s' vals c d, k_struct_from_stream E K n cid ctx kw s = (s', Ok vals) ->
  exists s'' v, k_do_load E K (S n) (Field c (KNested cid)) ctx d s = (s'', Ok v)).
Proof. exact nested_unlike. Qed.
Print Assumptions C107_nested_refuted.

(** Refuted: that an instance that can be dumped can be dumped as the only field of a struct. *)
Theorem C107_dump_refuted : ~ (forall E K n cid vals ctx outer name c bs, k_struct_to_stream E K n cid vals ctx = (bs, Ok tt) ->
  k_comps (cls E outer) = [(name, Field c (KNested cid))] -> c_name c = Some name -> c_size c = SNone -> unconditional c ->
  exists m out, k_struct_to_stream E K m outer [(name, VStruct cid vals)] ctx = (out, Ok tt)).
Proof. exact dump_unlike. Qed.
Print Assumptions C107_dump_refuted.

(** Refuted: that further arguments do not influence what is loaded; callables see them as loaded fields. *)
Theorem C107_unseen_refuted : ~ (forall E K n cid required optional ctx kw s,
  own_constructors_on_top E K -> takes_arguments E K cid required optional -> incl required (dkeys kw) ->
  k_struct_from_stream E K n cid ctx kw s = struct_from_stream E n cid ctx (without (required ++ optional) kw) s).
Proof. exact arguments_seen. Qed.
Print Assumptions C107_unseen_refuted.

(** The hypotheses can be met. *)
Example C107_nonvacuous :
  takes_arguments alone (scaling alone) 0 ["scale"%string] ["label"%string] /\ own_constructors_on_top alone (scaling alone)
  /\ (forall n, unaware alone n 0 ["scale"%string; "label"%string]) /\ incl ["scale"%string] (dkeys arguments)
  /\ k_struct_from_stream alone (scaling alone) 4 0 VNone arguments two_bytes = (mkStream [7; 8] 2, Ok scaled_values).
Proof.
  split; [exact alone_takes|]. split; [exact alone_on_top|]. split; [exact alone_unaware|]. split; [|exact alone_loads].
  intros x [<-|[]]. right. left. reflexivity.
Qed.

Example C107_contained_nonvacuous :
  takes_arguments built_classes (scaling built_classes) 0 ["scale"%string] ["label"%string]
  /\ instance_of built_classes 1 [("p"%string, VStruct 0 scaled_values)] /\ instance_of built_classes 0 scaled_values
  /\ k_struct_from_stream built_classes (scaling built_classes) 6 1 VNone [] two_bytes = (mkStream [7; 8] 2, Raise ETypeErr)
  /\ k_struct_to_stream built_classes (scaling built_classes) 6 1 [("p"%string, VStruct 0 scaled_values)] VNone = ([], Raise ETypeErr)
  /\ k_struct_to_stream built_classes (scaling built_classes) 6 1 [("p"%string, VDict (scaled_values ++ [("scale"%string, VInt 3)]))] VNone = ([7; 9], Ok tt).
Proof.
  exact (conj scaling_takes (conj (proj1 scaled_instances) (conj (proj2 scaled_instances) (conj outer_fails
    (conj (proj1 (proj2 (proj2 scaled_dumps))) (proj2 (proj2 (proj2 scaled_dumps)))))))).
Qed.
