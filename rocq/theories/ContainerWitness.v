(** Witnesses used by PropertiesContainer.v. *)
From Verif Require Import Samples.
From Verif Require Export ContainerProofs.

Lemma union_dump_field' E n c choices ld dd v ctx d i g :
  c_size c = SNone -> v <> VNone -> v <> VUndefined -> v <> VDefault -> accepts c v ->
  dd v ctx d = Ok i -> nth_error choices i = Some (CField g) ->
  field_to_stream E (S n) (Field c (KUnion choices ld dd)) v ctx d
  = field_to_stream E n g v ctx d.
Proof.
  intros Hs H1 H2 H3. apply union_dump_field; auto. destruct v; auto; congruence.
Qed.

Lemma union_skips_checks :
  let union g := Field (basic "u" SNone)
                   (KUnion [CField g] (fun _ _ _ => Ok 0%nat) (fun _ _ _ => Ok 0%nat)) in
  let s := mkStream [200] 0 in
  (exists g s' v e, loads_to [] (union g) VNone [] s s' v /\ load_raises [] g VNone [] s e
     /\ c_const (conf g) = VInt 7)
  /\ (exists g s' v e, loads_to [] (union g) VNone [] s s' v /\ load_raises [] g VNone [] s e
     /\ c_validators (conf g) = [at_most_9])
  /\ (exists g s' v, loads_to [] (union g) VNone [] s s' v /\ loads_to [] g VNone [] s s' VNone
     /\ v <> VNone).
Proof.
  cbv zeta. split; [|split].
  - exists (u8 (with_const (VInt 7) (byte "x"))), (mkStream [200] 1), (VInt 200),
      (EValidation (Some "x"%string)).
    split; [exists 2%nat; reflexivity|]. split; [exists 2%nat, (mkStream [200] 1); reflexivity|reflexivity].
  - exists (u8 (with_validators [at_most_9] (byte "x"))), (mkStream [200] 1), (VInt 200),
      (EValidation (Some "x"%string)).
    split; [exists 2%nat; reflexivity|]. split; [exists 2%nat, (mkStream [200] 1); reflexivity|reflexivity].
  - exists (u8 (with_null (VBytes [200]) (byte "x"))), (mkStream [200] 1), (VInt 200).
    split; [exists 2%nat; reflexivity|]. split; [exists 2%nat; reflexivity|discriminate].
Qed.

Lemma context_witness : exists E cid vals ctx f,
  In ("x"%string, f) (k_comps (cls E cid)) /\ dget vals "x" = Some (VInt 9)
  /\ (forall d, run_dict d (c_present (conf f) ctx None) = Ok true)
  /\ struct_to_stream E 5 cid vals ctx = ([1; 2], Ok tt)
  /\ dget vals "a" = Some (VInt 1) /\ dget vals "z" = Some (VInt 2).
Proof.
  set (f := u8 (with_present (fun ctx _ => QRet (negb (is_none ctx))) VNotPresent (byte "x"))).
  exists [class_of "T" [named "a" (u8 (byte "a")); named "x" f; named "z" (u8 (byte "z"))]], 0%nat,
    [("a"%string, VInt 1); ("x"%string, VInt 9); ("z"%string, VInt 2)], (VInt 1), f.
  repeat split. right. left. reflexivity.
Qed.

Lemma negative_count_witness : exists E c comp cnt l ctx d out,
  counted cnt d (-1) /\ zlen l <> -1
  /\ dumps_to E (Field c (KArray comp cnt None)) (VGen l) ctx d out.
Proof.
  exists [], (basic "l" SNone), (u8 (byte "c")), (CntInt (-1)), [VInt 5], VNone, [], [5].
  split; [left; auto|]. split; [discriminate|]. exists 2%nat. reflexivity.
Qed.
