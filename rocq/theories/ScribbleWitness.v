(** Examples of callables that write into the dictionary of loaded fields (C105). *)
From Coq Require Import String Lia.
From Verif Require Import Samples ScribbleProofs.
From Verif Require Export SpecScribbles.
Open Scope list_scope.
Open Scope Z_scope.

(** [d.setdefault(k, v)] *)
Definition put_default (k : string) (v : value) (d : dict) : dict := if dmem d k then d else d ++ [(k, v)].

Lemma put_extends k v d : extends d (put_default k v d).
Proof. unfold put_default. destruct (dmem d k) eqn:H; [apply extends_refl|apply extends_add; exact H]. Qed.

(** Nobody writes; every [present] sets a default for [x], or an entry [z]; elements of arrays set [n] to 1. *)
Definition quiet : scribbles := Scribbles (fun _ _ d _ => d) (fun _ _ _ d _ => d) (fun _ _ d _ => d).
Definition stubborn : scribbles := Scribbles (fun _ _ d _ => put_default "x" (VInt 9) d) (fun _ _ _ d _ => d) (fun _ _ d _ => d).
Definition stray : scribbles := Scribbles (fun _ _ d _ => put_default "z" VNone d) (fun _ _ _ d _ => d) (fun _ _ d _ => d).
Definition cutting : scribbles :=
  Scribbles (fun c _ d _ => match c_name c with Some _ => d | None => dset d "n" (VInt 1) end) (fun _ _ _ d _ => d) (fun _ _ d _ => d).

Lemma quiet_idle : idle quiet.
Proof. split; [|split]; reflexivity. Qed.
Lemma stubborn_adds : adds_only stubborn.
Proof. split; [|split]; intros; try apply extends_refl. apply put_extends. Qed.
Lemma stray_adds : adds_only stray.
Proof. split; [|split]; intros; try apply extends_refl. apply put_extends. Qed.

Definition element : field := u8 (mkConf None VUndefined VUndefined None false VUndefined (SInt 1) [] (fun _ _ => QRet true) VNotPresent None None None).
Definition counted_class : env := [class_of "C" [named "n" (u8 (byte "n")); named "a" (Field (basic "a" SNone) (KArray element (CntRef "n") None))]].
Definition pair_class : env := [class_of "P" [named "x" (u8 (byte "x")); named "y" (u8 (byte "y"))]].
Definition single_class : env := [class_of "S" [named "x" (u8 (byte "x"))]].

Lemma pair_loads : w_struct_from_stream pair_class stubborn 5 0 VNone [] (mkStream [7; 8] 0) = (mkStream [7; 8] 2, Ok [("x"%string, VInt 9); ("y"%string, VInt 8)]).
Proof. vm_compute. reflexivity. Qed.
Lemma counted_loads : w_struct_from_stream counted_class cutting 6 0 VNone [] (mkStream [3; 7; 8; 9] 0)
  = (mkStream [3; 7; 8; 9] 2, Ok [("n"%string, VInt 1); ("a"%string, VList [VInt 7])]).
Proof. vm_compute. reflexivity. Qed.
Lemma stray_raises : w_struct_from_stream pair_class stray 5 0 VNone [] (mkStream [7; 8] 0) = (mkStream [7; 8] 2, Raise (EUnexpectedValue ["z"%string])).
Proof. vm_compute. reflexivity. Qed.

Lemma cut_short :
  ~ (forall E W n c comp name ctx d s s' d' l z,
       w_do_load E W n (Field c (KArray comp (CntRef name) None)) ctx d s = (s', d', Ok (VList l)) ->
       dget d name = Some (VInt z) -> 0 <= z -> zlen l = z).
Proof.
  intros H. specialize (H [] cutting 5%nat (basic "a" SNone) element "n"%string VNone [("n"%string, VInt 3)] (mkStream [7; 8; 9] 0)
    (mkStream [7; 8; 9] 1) [("n"%string, VInt 1)] [VInt 7] 3). discriminate H; [vm_compute; reflexivity|reflexivity|lia].
Qed.

Lemma read_in_vain :
  ~ (forall E W n cid name f ctx s s1 d1 v s' vals, adds_only W -> comps E cid = [(name, f)] ->
       w_field_from_stream E W n f ctx [] s = (s1, d1, Ok v) ->
       w_struct_from_stream E W n cid ctx [] s = (s', Ok vals) -> dget vals name = Some v).
Proof.
  intros H. specialize (H single_class stubborn 5%nat 0%nat "x"%string (u8 (byte "x")) VNone (mkStream [7] 0)
    (mkStream [7] 1) [("x"%string, VInt 9)] (VInt 7) (mkStream [7] 1) [("x"%string, VInt 9)] stubborn_adds).
  discriminate H; vm_compute; reflexivity.
Qed.
