(** Property theorems: timestamps of nanosecond resolution (C72), and additions to C44, C60 and
    C69.  Vocabulary: Spec*.v, [container_refuses] and [own_size] in ContainerTypes.v,
    [arguments] in ArgsProofs.v, [a_value] in WrongType.v, [foreign] in DetailProofs.v. *)
From Verif Require Import StructModel SpecNum VarintSpec Samples TimeNano ContainerTypes.
Open Scope Z_scope.

Definition cfg (s : sizespec) : fconf := basic "x" s.

(** C72: 2^31 seconds before and after the epoch (1901 to 2038) a nanosecond timestamp of at
    least eight bytes stores every microsecond, aware or naive, and gives it back. *)
Theorem C72_roundtrip : forall E fuel c tz sg e n us aware ctx d,
  Z.abs us < 2147483648 * 1000000 -> c_size c = SInt n -> accepts c (VTime us aware) ->
  (8 <= n -> sg = true \/ 0 <= us -> exists bs,
     field_to_stream E fuel (Field c (KTime ResNs tz sg e)) (VTime us aware) ctx d = (bs, Ok tt))
  /\ forall bs, field_to_stream E fuel (Field c (KTime ResNs tz sg e)) (VTime us aware) ctx d = (bs, Ok tt) ->
     zlen bs = n
     /\ forall E' fuel' ctx' d' pre suf, takes c (VTime us tz) ->
          field_from_stream E' fuel' (Field c (KTime ResNs tz sg e)) ctx' d' (at_data pre bs suf)
          = (after_data pre bs suf, Ok (VTime us tz)).
Proof. exact nano_roundtrip. Qed.
Print Assumptions C72_roundtrip.

(** The stored number is within 249 of the number of nanoseconds. *)
Theorem C72_stored : forall E fuel c tz sg e n us aware ctx d,
  Z.abs us < 2147483648 * 1000000 -> c_size c = SInt n ->
  accepts c (VTime us aware) -> (forall z, accepts c (VInt z)) ->
  exists k, Z.abs (k - us * 1000) <= 249
    /\ field_to_stream E fuel (Field c (KTime ResNs tz sg e)) (VTime us aware) ctx d
       = field_to_stream E fuel (Field c (KInt sg e)) (VInt k) ctx d.
Proof. exact nano_stored. Qed.
Print Assumptions C72_stored.

(** Every such number loads as that microsecond. *)
Theorem C72_loaded : forall E fuel c tz sg e n us k bs ctx d,
  Z.abs us < 2147483648 * 1000000 -> Z.abs (k - us * 1000) <= 249 ->
  c_size c = SInt n -> accepts c (VInt k) ->
  field_to_stream E fuel (Field c (KInt sg e)) (VInt k) ctx d = (bs, Ok tt) ->
  forall E' fuel' ctx' d' pre suf, takes c (VTime us tz) ->
  field_from_stream E' fuel' (Field c (KTime ResNs tz sg e)) ctx' d' (at_data pre bs suf)
  = (after_data pre bs suf, Ok (VTime us tz)).
Proof. exact nano_loaded. Qed.
Print Assumptions C72_loaded.

(** After 2038 it fails: 2087-09-08T15:45:31.377363 comes back one microsecond late. *)
Theorem C72_later_refuted :
  let f := Field (cfg (SInt 8)) (KTime ResNs true true Big) in
  field_to_stream [] 0 f (VTime 3713874331377363 true) VNone [] = ([51; 138; 85; 7; 6; 48; 106; 0], Ok tt)
  /\ field_from_stream [] 0 f VNone [] (mkStream [51; 138; 85; 7; 6; 48; 106; 0] 0)
     = (mkStream [51; 138; 85; 7; 6; 48; 106; 0] 8, Ok (VTime 3713874331377364 true)).
Proof. split; vm_compute; reflexivity. Qed.
Print Assumptions C72_later_refuted.

Example C72_example :
  let f := Field (cfg (SInt 8)) (KTime ResNs false true Big) in
  Z.abs 1700000000123457 < 2147483648 * 1000000
  /\ accepts (cfg (SInt 8)) (VTime 1700000000123457 true) /\ takes (cfg (SInt 8)) (VTime 1700000000123457 false)
  /\ field_to_stream [] 0 f (VTime 1700000000123457 false) VNone [] = ([23; 151; 156; 254; 61; 133; 206; 0], Ok tt).
Proof. split; [reflexivity|]. split; [constructor|]. split; [repeat split; constructor|]. vm_compute. reflexivity. Qed.

(** Addition to C69: containers refuse values that are no containers, writing nothing. *)
Theorem C69_containers : forall E n c k v ctx d e, container_refuses d ctx k v e -> a_value v -> accepts c v ->
  field_to_stream E (S n) (Field c k) v ctx d = ([], Raise e).
Proof. exact container_refused. Qed.
Print Assumptions C69_containers.

Example C69_containers_example :
  let u := KUnion [CStruct 0] (fun _ _ _ => Ok 0%nat) (fun v _ _ => match v with VInt 7 => Ok 1%nat | _ => Ok 0%nat end) in
  container_refuses [] VNone (KArray (u8 (byte "b")) (CntInt 3) None) (VInt 5) ETypeErr
  /\ container_refuses [] VNone (KNested 0) (VList []) ETypeErr
  /\ container_refuses [] VNone u (VInt 5) ETypeErr /\ container_refuses [] VNone u (VInt 7) ETypeErr.
Proof.
  split; [|split; [|split]].
  - apply cr_array; [right; exists 3; left; reflexivity|intros []].
  - apply cr_nested; [intros [? H]|intros (? & ? & H)]; discriminate.
  - eapply cr_union_struct; [reflexivity|reflexivity|intros [? H]|intros (? & ? & H)]; discriminate.
  - eapply cr_union_nothing; reflexivity.
Qed.

(** Addition to C44: a load decider that returns no choice is a TypeError before anything is
    read; one that raises an exception of its own stops the load. *)
Theorem C44_load_no_choice : forall E n c choices ld dd ctx d s, always_present c -> c_null c = VUndefined ->
  (forall i, ld s ctx d = Ok i -> nth_error choices i = None ->
     field_from_stream E (S n) (Field c (KUnion choices ld dd)) ctx d s = (s, Raise ETypeErr))
  /\ (forall e, ld s ctx d = Raise e -> foreign e ->
     field_from_stream E (S n) (Field c (KUnion choices ld dd)) ctx d s = (s, Raise e)).
Proof. exact union_no_choice. Qed.
Print Assumptions C44_load_no_choice.

(** Addition to C60: a class with its own size accepts no other. *)
Theorem C60_size_twice : forall native E n x, own_size x -> a_size (arguments x) <> SNone ->
  construct native E n x = Raise ETypeErr.
Proof. exact size_twice. Qed.
Print Assumptions C60_size_twice.

Example C60_size_twice_example :
  let kw := mkKw None VUndefined (DValue VUndefined) None false VUndefined (SInt 4) [] (fun _ _ => QRet true) VNotPresent in
  own_size (XInt (IntSubclass "Mine" UInt32) None None kw) /\ a_size (arguments (XInt (IntSubclass "Mine" UInt32) None None kw)) <> SNone.
Proof. split; [repeat constructor|discriminate]. Qed.
