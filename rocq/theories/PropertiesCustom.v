(** C95: fields defined by users of the library. *)
From Coq Require Import Lia.
From Verif Require Import SpecCustom CustomProofs Samples StreamProofs VarintsMore FieldProofs.

(** The library's own fields and structs are such fields and structs. *)
Theorem C95_builtin_to_stream E n f v ctx d : plain_null f -> u_to_stream (builtin E n f) v ctx d = field_to_stream E n f v ctx d.
Proof. exact (builtin_to E n f v ctx d). Qed.
Print Assumptions C95_builtin_to_stream.

Theorem C95_builtin_from_stream E n f ctx d s : plain_null f -> u_from_stream (py_eq E n) (builtin E n f) ctx d s = field_from_stream E n f ctx d s.
Proof. exact (builtin_from E n f ctx d s). Qed.
Print Assumptions C95_builtin_from_stream.

Theorem C95_builtin_struct_to_stream E n cid vals ctx : (forall name f, In (name, f) (comps E cid) -> plain_null f) ->
  u_struct_to_stream E n (builtins E n (comps E cid)) cid vals ctx = struct_to_stream E n cid vals ctx.
Proof. exact (builtin_struct_to E n cid vals ctx). Qed.
Print Assumptions C95_builtin_struct_to_stream.

Theorem C95_builtin_struct_from_stream E n cid ctx init s : (forall name f, In (name, f) (comps E cid) -> plain_null f) ->
  u_struct_from_stream (py_eq E n) E n (builtins E n (comps E cid)) cid ctx init s = struct_from_stream E n cid ctx init s.
Proof. exact (builtin_struct_from E n cid ctx init s). Qed.
Print Assumptions C95_builtin_struct_from_stream.

Theorem C95_builtin_array E n c comp cnt halt v ctx d s : plain_null comp ->
  u_dump (builtin E (S n) (Field c (KArray comp cnt halt))) v ctx d
  = u_dump (u_array (py_eq E n) n c (builtin E n comp) cnt halt) v ctx d
  /\ u_load (builtin E (S n) (Field c (KArray comp cnt halt))) ctx d s
     = u_load (u_array (py_eq E n) n c (builtin E n comp) cnt halt) ctx d s.
Proof. exact (builtin_array E n c comp cnt halt v ctx d s). Qed.
Print Assumptions C95_builtin_array.

(** What is written for an object: what [_do_dump] wrote, if it has the field's size, filled up
    by [_add_padding] if it is shorter. *)
Theorem C95_to_stream f v ctx d out : object v ->
  u_to_stream f v ctx d = (out, Ok tt)
  <-> accepts (u_conf f) v /\ exists bs, u_dump f v ctx d = (bs, Ok tt) /\ sealed f d bs out.
Proof. exact (to_stream_iff f v ctx d out). Qed.
Print Assumptions C95_to_stream.

Theorem C95_to_stream_none f ctx d out : u_to_stream f VNone ctx d = (out, Ok tt)
  <-> accepts (u_conf f) VNone /\ u_null_repr f d = Ok out.
Proof. exact (to_stream_null f ctx d out). Qed.
Print Assumptions C95_to_stream_none.

(** A field is written as a whole or not at all, whatever [_do_dump] does. *)
Theorem C95_all_or_nothing f v ctx d out r : u_to_stream f v ctx d = (out, r) -> r <> Ok tt -> out = [].
Proof. exact (all_or_nothing f v ctx d out r). Qed.
Print Assumptions C95_all_or_nothing.

(** [_do_dump] need only deal with objects that the validators accept, and the null value. *)
Theorem C95_do_dump_called f g v ctx d : u_conf g = u_conf f -> u_size_for g = u_size_for f -> u_pad g = u_pad f ->
  (forall x ctx, object x -> accepts (u_conf f) x \/ x = c_null (u_conf f) -> u_dump g x ctx d = u_dump f x ctx d) ->
  u_to_stream g v ctx d = u_to_stream f v ctx d.
Proof. exact (dump_called f g v ctx d). Qed.
Print Assumptions C95_do_dump_called.

(** What is loaded is what [_do_load] returns, if it is accepted. *)
Theorem C95_from_stream eqv f ctx d s s' w : run_dict d (c_present (u_conf f) ctx (Some s)) = Ok true -> c_null (u_conf f) = VUndefined ->
  u_from_stream eqv f ctx d s = (s', Ok w)
  <-> u_load f ctx d s = (s', Ok w) /\ accepts (u_conf f) w
      /\ (c_const (u_conf f) = VUndefined \/ eqv w (c_const (u_conf f)) = Ok true).
Proof. exact (from_iff eqv f ctx d s s' w). Qed.
Print Assumptions C95_from_stream.

Theorem C95_load_error eqv f ctx d s s' e : run_dict d (c_present (u_conf f) ctx (Some s)) = Ok true -> c_null (u_conf f) = VUndefined ->
  u_load f ctx d s = (s', Raise e) -> u_from_stream eqv f ctx d s = (s', Raise (set_field (c_name (u_conf f)) e)).
Proof. exact (from_raises eqv f ctx d s s' e). Qed.
Print Assumptions C95_load_error.

(** If [_do_load] undoes [_do_dump], then loading undoes dumping: for the field, ... *)
Theorem C95_field_roundtrip eqv f ctx d ctx' dl v w out pre suf : restores eqv f ctx d ctx' dl v w ->
  (if is_not_present v then dret tt else u_to_stream f v ctx d) = (out, Ok tt) ->
  u_from_stream eqv f ctx' dl (at_data pre out suf) = (after_data pre out suf, Ok w).
Proof. exact (field_roundtrip eqv f ctx d ctx' dl v w out pre suf). Qed.
Print Assumptions C95_field_roundtrip.

(** ... for structs of such fields, ... *)
Theorem C95_struct_roundtrip eqv E n fs cid vals ctx ctx' out all ws pre suf :
  to_dict E n cid vals false = Ok all -> all_restored eqv ctx all ctx' fs [] ws ->
  incl (dkeys ws) (map fst (comps E cid)) -> validate_contents E n cid ws = Ok tt ->
  u_struct_to_stream E n fs cid vals ctx = (out, Ok tt) ->
  u_struct_from_stream eqv E n fs cid ctx' [] (at_data pre out suf) = (after_data pre out suf, Ok (delete_discard (comps E cid) ws)).
Proof. exact (struct_roundtrip eqv E n fs cid vals ctx ctx' out all ws pre suf). Qed.
Print Assumptions C95_struct_roundtrip.

(** ... for arrays, nested structs and unions of them, which are such fields again. *)
Theorem C95_array eqv m c comp cnt ctx d ctx' dl l ws : (length l < m)%nat -> count_known cnt dl (zlen l) ->
  Forall2 (restores eqv comp ctx d ctx' dl) l ws -> Forall (fun v => v <> VNotPresent) l -> Forall (fun w => w <> VNotPresent) ws ->
  undoes (u_array eqv m c comp cnt None) ctx d ctx' dl (VList l) (VList ws).
Proof. exact (array_undoes eqv m c comp cnt ctx d ctx' dl l ws). Qed.
Print Assumptions C95_array.

Theorem C95_nested eqv E n c fs cid ctx d ctx' dl vals all ws :
  to_dict E n cid vals false = Ok all -> all_restored eqv ctx all ctx' fs [] ws ->
  incl (dkeys ws) (map fst (comps E cid)) -> validate_contents E n cid ws = Ok tt ->
  undoes (u_nested eqv E n c fs cid) ctx d ctx' dl (VStruct cid vals) (VStruct cid (delete_discard (comps E cid) ws)).
Proof. exact (nested_undoes eqv E n c fs cid ctx d ctx' dl vals all ws). Qed.
Print Assumptions C95_nested.

Theorem C95_union c choices ld dmp i g ctx d ctx' dl v w : nth_error choices i = Some g -> object v ->
  dmp v ctx d = Ok i -> (forall s, ld s ctx' dl = Ok i) -> undoes g ctx d ctx' dl v w ->
  undoes (u_union c choices ld dmp) ctx d ctx' dl v w.
Proof. exact (union_undoes c choices ld dmp i g ctx d ctx' dl v w). Qed.
Print Assumptions C95_union.

(** [from_bytes] finds the value, and refuses anything after it if asked to. *)
Theorem C95_from_bytes eqv f ctx d ctx' dl v w out suf exact : restores eqv f ctx d ctx' dl v w ->
  (if is_not_present v then dret tt else u_to_stream f v ctx d) = (out, Ok tt) ->
  u_from_bytes eqv f (out ++ suf) ctx' exact dl
  = if exact then match suf with [] => Ok w | _ => Raise (EExtraneous None) end else Ok w.
Proof. exact (from_bytes_roundtrip eqv f ctx d ctx' dl v w out suf exact). Qed.
Print Assumptions C95_from_bytes.

(** The size of a field in a struct, ... *)
Theorem C95_expected_size f d :
  match c_size (u_conf f) with
  | SInt n => u_get_expected_size f d = Ok n
  | SRef name => forall n, u_get_expected_size f d = Ok n <-> dget d name = Some (VInt n)
  | SNone => forall name v n, c_name (u_conf f) = Some name -> dget d name = Some v ->
             u_get_expected_size f d = Ok n <-> (v <> VNone /\ u_size_for f v = Ok (Some n))
                \/ (v = VNone /\ exists bs, u_null_repr f d = Ok bs /\ n = zlen bs)
  end.
Proof. exact (expected_size f d). Qed.
Print Assumptions C95_expected_size.

(** ... and what is written for None. *)
Theorem C95_null_repr f d :
  match c_null (u_conf f) with
  | VUndefined => u_null_repr f d = Raise (EUnserializable (c_name (u_conf f)))
  | VBytes bs => u_null_repr f d = Ok bs
  | VDefault | VNone => forall n, u_get_expected_size f d = Ok n -> u_null_repr f d = Ok (repeat 0 (Z.to_nat n))
  | v => forall bs, u_null_repr f d = Ok bs <-> u_dump f v VNone d = (bs, Ok tt)
  end.
Proof. exact (null_repr_is f d). Qed.
Print Assumptions C95_null_repr.

(** ** Example: byte strings preceded by their length *)

Definition prefixed_dump (v ctx : value) (d : dict) : dumped unit :=
  match v with
  | VBytes bs => if 255 <? zlen bs then draise EValueErr else dwrite (zlen bs :: bs)
  | _ => draise ETypeErr
  end.

Definition prefixed_load (ctx : value) (d : dict) : loader value := fun s =>
  match read s 1 with
  | (n :: _, s1) => let '(bs, s2) := read s1 n in
                    if zlen bs <? n then (s2, Raise (EUnexpectedEOF None n (tell s1))) else (s2, Ok (VBytes bs))
  | ([], s1) => (s1, Raise (EUnexpectedEOF None 1 (tell s)))
  end.

Definition prefixed (name : string) : ufield :=
  let c := basic name SNone in UField c (base_size_for c) (base_pad c) prefixed_dump prefixed_load.

Lemma read_exactly s bs suf : rest s = bs ++ suf -> read s (zlen bs) = (bs, advance s (length bs)).
Proof.
  intros H. unfold read. rewrite (proj2 (Z.ltb_ge _ _)) by (unfold zlen; lia). rewrite H, app_length.
  unfold zlen. replace (Z.to_nat (Z.min (Z.of_nat (length bs)) (Z.of_nat (length bs + length suf)))) with (length bs) by lia.
  rewrite firstn_app, Nat.sub_diag, firstn_all. cbn [firstn]. rewrite app_nil_r. reflexivity.
Qed.

Lemma prefixed_undoes name ctx d ctx' dl bs : undoes (prefixed name) ctx d ctx' dl (VBytes bs) (VBytes bs).
Proof.
  intros b out pre suf Hd Hse. cbn [prefixed u_dump prefixed_dump] in Hd. destruct (255 <? zlen bs) eqn:Hl; [discriminate|].
  injection Hd as <-. destruct Hse as [(_ & ->)|(size & [] & _)].
  cbn [prefixed u_load]. unfold prefixed_load.
  assert (H1 : rest (at_data pre (zlen bs :: bs) suf) = [zlen bs] ++ bs ++ suf) by (rewrite rest_at; reflexivity).
  change (read (at_data pre (zlen bs :: bs) suf) 1) with (read (at_data pre (zlen bs :: bs) suf) (zlen [zlen bs])).
  rewrite (read_exactly _ [zlen bs] (bs ++ suf) H1). cbv iota.
  assert (H2 : rest (advance (at_data pre (zlen bs :: bs) suf) (length [zlen bs])) = bs ++ suf).
  { rewrite rest_advance, H1. reflexivity. }
  rewrite (read_exactly _ bs suf H2). rewrite Z.ltb_irrefl. unfold advance, at_data, after_data. cbn [s_data s_pos length app].
  f_equal. f_equal. lia.
Qed.

Lemma prefixed_restores eqv name ctx d ctx' dl bs : restores eqv (prefixed name) ctx d ctx' dl (VBytes bs) (VBytes bs).
Proof.
  apply restores_value; [repeat split; discriminate|discriminate|apply prefixed_undoes|intros s; reflexivity|constructor|left; reflexivity|left; reflexivity].
Qed.

(** A struct with such a field and an array of them. *)
Definition many_fs : list (string * ufield) :=
  [("a"%string, prefixed "a"); ("b"%string, u_array (py_eq [] 9) 9 (basic "b" SNone) (prefixed "x") (CntInt 2) None)].
Definition many_E : env := [class_of "M" [named "a" (Field (basic "a" SNone) KBytes); named "b" (Field (basic "b" SNone) KBytes)]].
Definition many_vals : dict := [("a"%string, VBytes [7]); ("b"%string, VList [VBytes []; VBytes [8; 9]])].

Example C95_nonvacuous :
  u_struct_to_stream many_E 9 many_fs 0 many_vals VNone = ([1; 7; 0; 2; 8; 9], Ok tt)
  /\ to_dict many_E 9 0 many_vals false = Ok many_vals
  /\ all_restored (py_eq [] 9) VNone many_vals VNone many_fs [] many_vals
  /\ validate_contents many_E 9 0 many_vals = Ok tt
  /\ incl (dkeys many_vals) (map fst (comps many_E 0))
  /\ u_struct_from_stream (py_eq [] 9) many_E 9 many_fs 0 VNone [] (at_data [5] [1; 7; 0; 2; 8; 9] [6])
     = (after_data [5] [1; 7; 0; 2; 8; 9] [6], Ok many_vals).
Proof.
  split; [vm_compute; reflexivity|]. split; [vm_compute; reflexivity|].
  split; [|split; [vm_compute; reflexivity|split; [intros x Hx; exact Hx|vm_compute; reflexivity]]].
  eapply all_restored_cons; [intros []|reflexivity|apply prefixed_restores|].
  eapply all_restored_cons; [intros [H|[]]; discriminate|reflexivity| |constructor].
  apply restores_value; [repeat split; discriminate|discriminate| |intros s; reflexivity|constructor|left; reflexivity|left; reflexivity].
  apply C95_array; [cbn; lia|reflexivity| | |].
  - repeat (apply Forall2_cons; [apply prefixed_restores|]). apply Forall2_nil.
  - repeat constructor; discriminate.
  - repeat constructor; discriminate.
Qed.

(** Violated: a field with a fixed size takes that many bytes, neither when loading ... *)
Definition lazy : ufield :=
  let c := basic "z" (SInt 2) in
  UField c (base_size_for c) (fun bs n => Ok (bs ++ [0; 0; 0])) (fun v ctx d => dwrite [1])
    (fun ctx d s => let '(bs, s') := read s 1 in (s', Ok (VBytes bs))).

Theorem C95_load_size_refuted :
  ~ (forall eqv f n ctx d s s' w, c_size (u_conf f) = SInt n -> 0 <= n -> shows_up f ctx d true -> c_null (u_conf f) = VUndefined ->
       u_from_stream eqv f ctx d s = (s', Ok w) -> s' = advance s (Z.to_nat n)).
Proof.
  intros H. specialize (H (py_eq [] 9) lazy 2 VNone [] (mkStream [1; 2; 3] 0) (mkStream [1; 2; 3] 1) (VBytes [1])
                          eq_refl ltac:(lia) (fun s => eq_refl) eq_refl ltac:(vm_compute; reflexivity)).
  discriminate H.
Qed.
Print Assumptions C95_load_size_refuted.

(** ... nor when dumping: what [_add_padding] returns is not checked. *)
Theorem C95_dump_size_refuted :
  ~ (forall f n v ctx d out, c_size (u_conf f) = SInt n -> object v -> u_to_stream f v ctx d = (out, Ok tt) -> zlen out = n).
Proof.
  intros H. assert (Ho : object (VInt 5)) by (repeat split; discriminate).
  specialize (H lazy 2 (VInt 5) VNone [] [1; 0; 0; 0] eq_refl Ho ltac:(vm_compute; reflexivity)). discriminate H.
Qed.
Print Assumptions C95_dump_size_refuted.
