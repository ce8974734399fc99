(** Examples for JSON (C108). *)
From Coq Require Import String Lia List ZArith.
From Verif Require Import Samples StructProofs LocalWitness JsonProofs.
From Verif Require Export SpecJson.
Import ListNotations.
Open Scope list_scope.
Open Scope Z_scope.

(** 0: a number and a text of two characters; 1: a number of class-0 structs, those structs, and
    padding that is discarded; 2: a float; 3: bytes; 4: a flag and a byte that is there if the flag is 1. *)
Definition j_text (name : string) : field := Field (basic name (SInt 2)) (KString Utf8 None).
Definition j_classes : env :=
  [class_of "Entry" [named "x" (u8 (byte "x")); named "t" (j_text "t")];
   class_of "Table" [named "n" (u8 (byte "n"));
                     named "entries" (Field (basic "entries" SNone) (KArray (Field (basic "entry" SNone) (KNested 0)) (CntRef "n") None));
                     named "pad" (Field (with_discard (with_default VNone (basic "pad" (SInt 1)))) KBytes)];
   class_of "Measure" [named "f" (Field (basic "f" (SInt 8)) (KFloat binary64 Big))];
   class_of "Blob" [named "b" (Field (basic "b" (SInt 2)) KBytes)];
   class_of "Flagged" [named "flag" (u8 (byte "flag")); named "x" (u8 (with_present if_flag VNotPresent (byte "x")))]].

Definition j_set (cid : nat) : Prop := cid = 0%nat \/ cid = 1%nat.

Lemma j_well cid : well_formed (cls j_classes cid).
Proof.
  assert (He : well_formed empty_class) by (split; [constructor|split; [constructor|intros x []]]).
  destruct cid as [|[|[|[|[|cid]]]]]; [| | | | |destruct cid; exact He].
  all: split; [repeat constructor; cbn; intuition discriminate|split; [repeat constructor|intros x; cbn; tauto]].
Qed.

Lemma basic_uncond name sz : unconditional (basic name sz).
Proof. intros mem get keys ctx so. reflexivity. Qed.

Lemma basic_supplies P name sz : supplies P (basic name sz).
Proof. split; [left; reflexivity|]. split; discriminate. Qed.

Lemma j_exact : json_classes j_classes exact_scalar exact_leaves j_set.
Proof.
  intros cid Hq. split; [apply j_well|]. intros name f Hin.
  destruct Hq as [->| ->]; cbn in Hin.
  - destruct Hin as [H|[H|[]]]; injection H as <- <-; (split; [apply basic_uncond|split; [apply basic_supplies|]]); intros _; apply jf_leaf; try exact I.
    cbn. exists 1. split; [reflexivity|lia].
  - destruct Hin as [H|[H|[H|[]]]]; injection H as <- <-.
    + split; [apply basic_uncond|split; [apply basic_supplies|]]. intros _. apply jf_leaf; [exact I|]. cbn. exists 1. split; [reflexivity|lia].
    + split; [apply basic_uncond|split; [apply basic_supplies|]]. intros _. apply jf_array; [|apply basic_uncond|discriminate].
      apply jf_nested. left. reflexivity.
    + split; [apply basic_uncond|split; [|discriminate]]. split; [right; apply ready_scalar; exact I|]. split; discriminate.
Qed.

Definition j_stream : stream := mkStream [2; 7; 72; 105; 8; 195; 169; 0] 0.
Definition j_vals : dict :=
  [("n"%string, VInt 2);
   ("entries"%string, VList [VStruct 0 [("x"%string, VInt 7); ("t"%string, VStr [72; 105])];
                             VStruct 0 [("x"%string, VInt 8); ("t"%string, VStr [233])]])].
Definition j_dict : dict :=
  [("n"%string, VInt 2);
   ("entries"%string, VList [VDict [("x"%string, VInt 7); ("t"%string, VStr [72; 105])];
                             VDict [("x"%string, VInt 8); ("t"%string, VStr [233])]])].
Lemma j_bytes : bytes_ok (rest j_stream).
Proof. apply LocalWitness.bytes_ok_check. reflexivity. Qed.
Lemma j_loads : struct_from_stream j_classes 6 1 VNone [] j_stream = (mkStream [2; 7; 72; 105; 8; 195; 169; 0] 8, Ok j_vals).
Proof. vm_compute. reflexivity. Qed.
Lemma j_to_dict : to_dict j_classes 6 1 j_vals false = Ok j_dict.
Proof. vm_compute. reflexivity. Qed.

(** Class 0 alone: nothing is discarded. *)
Definition j_small : stream := mkStream [7; 72; 105] 0.
Definition j_entry : dict := [("x"%string, VInt 7); ("t"%string, VStr [72; 105])].
Lemma j_entry_loads : struct_from_stream j_classes 6 0 VNone [] j_small = (mkStream [7; 72; 105] 3, Ok j_entry)
  /\ to_dict j_classes 6 0 j_entry false = Ok j_entry /\ validated j_classes 6 0 j_entry /\ bytes_ok (rest j_small)
  /\ (forall name f, In (name, f) (k_comps (cls j_classes 0)) -> c_discard (conf f) = false)
  /\ struct_to_stream j_classes 6 0 j_entry VNone = ([7; 72; 105], Ok tt).
Proof.
  split; [vm_compute; reflexivity|]. split; [vm_compute; reflexivity|]. split; [apply validate_contents_iff; vm_compute; reflexivity|].
  split; [apply LocalWitness.bytes_ok_check; reflexivity|]. split; [|vm_compute; reflexivity].
  intros name f H. cbn in H. destruct H as [H|[H|[]]]; injection H as <- <-; reflexivity.
Qed.

Lemma exact_is_writable x : exact_scalar x -> writable x.
Proof. intros H z ->. exact H. Qed.

Lemma ready_mono (R R' : value -> Prop) Q v : (forall x, R x -> R' x) -> json_ready R Q v -> json_ready R' Q v.
Proof.
  intros HR. induction v as [v Hv|l IH|l IH|d IH|cid d IH] using EndsProofs.value_induct; intros H; inversion H as [? Hs Hr|? Hl|? Hl|? ? Hq Hl]; subst; try contradiction.
  - apply ready_scalar; auto.
  - apply ready_list. rewrite Forall_forall in *. auto.
  - apply ready_dict. rewrite Forall_forall in *. auto.
  - apply ready_struct; auto. rewrite Forall_forall in *. auto.
Qed.

(** A float that is not a number, with a payload. *)
Definition nan_stream : stream := mkStream [127; 248; 0; 0; 0; 0; 0; 1] 0.
Definition nan_vals : dict := [("f"%string, VFloat 9221120237041090561)].
Lemma nan_loads : struct_from_stream j_classes 6 2 VNone [] nan_stream = (mkStream [127; 248; 0; 0; 0; 0; 0; 1] 8, Ok nan_vals)
  /\ to_dict j_classes 6 2 nan_vals false = Ok nan_vals
  /\ struct_to_stream j_classes 6 2 nan_vals VNone = ([127; 248; 0; 0; 0; 0; 0; 1], Ok tt)
  /\ json_round (VDict nan_vals) = Ok (VDict [("f"%string, VFloat 9221120237041090560)])
  /\ struct_to_stream j_classes 6 2 [("f"%string, VFloat 9221120237041090560)] VNone = ([127; 248; 0; 0; 0; 0; 0; 0], Ok tt).
Proof. repeat split; vm_compute; reflexivity. Qed.

Lemma is_floating : json_classes j_classes writable limited_numbers (fun cid => cid = 2%nat).
Proof.
  intros cid ->. split; [apply j_well|]. intros name f Hin. cbn in Hin. destruct Hin as [H|[]]; injection H as <- <-.
  split; [apply basic_uncond|split; [apply basic_supplies|]]. intros _. apply jf_leaf; exact I.
Qed.

(** Bytes, and a field that is not present. *)
Lemma blob_fails : struct_from_stream j_classes 6 3 VNone [] (mkStream [1; 2] 0) = (mkStream [1; 2] 2, Ok [("b"%string, VBytes [1; 2])])
  /\ to_dict j_classes 6 3 [("b"%string, VBytes [1; 2])] false = Ok [("b"%string, VBytes [1; 2])]
  /\ json_round (VDict [("b"%string, VBytes [1; 2])]) = Raise ETypeErr.
Proof. repeat split; vm_compute; reflexivity. Qed.
Lemma flagged_fails :
  struct_from_stream j_classes 6 4 VNone [] (mkStream [0] 0) = (mkStream [0] 1, Ok [("flag"%string, VInt 0); ("x"%string, VNotPresent)])
  /\ to_dict j_classes 6 4 [("flag"%string, VInt 0); ("x"%string, VNotPresent)] false = Ok [("flag"%string, VInt 0); ("x"%string, VNotPresent)]
  /\ json_round (VDict [("flag"%string, VInt 0); ("x"%string, VNotPresent)]) = Raise ETypeErr.
Proof. repeat split; vm_compute; reflexivity. Qed.

Lemma always_writable_refuted : ~ (forall E n m cid ctx s s' vals d, struct_from_stream E n cid ctx [] s = (s', Ok vals) ->
  to_dict E m cid vals false = Ok d -> exists w, json_round (VDict d) = Ok w).
Proof.
  intros H. destruct blob_fails as (H1 & H2 & H3). destruct (H _ _ _ _ _ _ _ _ _ H1 H2) as [w Hw]. rewrite H3 in Hw. discriminate.
Qed.

Lemma same_dump_refuted : ~ (forall E n cid ctx s s' vals d d', struct_from_stream E n cid ctx [] s = (s', Ok vals) ->
  to_dict E n cid vals false = Ok d -> json_round (VDict d) = Ok (VDict d') ->
  struct_to_stream E n cid d' ctx = struct_to_stream E n cid vals ctx).
Proof.
  intros H. destruct nan_loads as (H1 & H2 & H3 & H4 & H5). specialize (H _ _ _ _ _ _ _ _ _ H1 H2 H4). rewrite H3, H5 in H. discriminate.
Qed.

(** A pair of surrogates becomes one character. *)
Lemma surrogates_join : json_round (VStr [55296; 56320]) = Ok (VStr [65536]) /\ json_round (VStr [56320; 55296]) = Ok (VStr [56320; 55296])
  /\ json_round (VStr [55296; 55296; 56320; 56320]) = Ok (VStr [55296; 65536; 56320]).
Proof. repeat split; vm_compute; reflexivity. Qed.

(** The other kinds of classes *)
Lemma field_mono (L L' : fconf -> fkind -> Prop) Q : (forall c k, L c k -> L' c k) -> forall f, json_field L Q f -> json_field L' Q f.
Proof.
  intros HL. fix go 2. intros f [c k Hk Hl|c comp cnt halt Hc Hu Hh|c cid Hq|c choices ld dmp Hg Hq].
  - apply jf_leaf; auto.
  - apply jf_array; auto.
  - apply jf_nested; auto.
  - apply jf_union; auto.
Qed.

Lemma classes_mono E (R R' : value -> Prop) (L L' : fconf -> fkind -> Prop) Q : (forall x, R x -> R' x) -> (forall c k, L c k -> L' c k) ->
  (forall c, supplies (json_ready R Q) c -> supplies (json_ready R' Q) c) -> json_classes E R L Q -> json_classes E R' L' Q.
Proof.
  intros HR HL HS HC cid Hq. destruct (HC cid Hq) as [Hwf Hf]. split; auto. intros name f Hin. destruct (Hf _ _ Hin) as (Hu & Hs & Hj).
  split; auto. split; auto. intros Hd. eapply field_mono; [exact HL|auto].
Qed.

Lemma returns_mono P q : returns P q -> forall P' : value -> Prop, (forall v, P v -> P' v) -> returns P' q.
Proof.
  induction 1 as [P v Hv|P e|P nm k H IH|P nm k H1 IH1 H2 IH2|P k H IH]; intros P' HP; constructor; auto.
  intros v. apply IH1. intros x [Hx|Hx]; auto.
Qed.

Lemma supplies_mono (P P' : value -> Prop) c : (forall v, P v -> P' v) -> supplies P c -> supplies P' c.
Proof.
  intros HP (H1 & H2 & H3). split; [destruct H1; auto|]. split; [eauto|]. intros q Hq. eapply returns_mono; eauto.
Qed.

Lemma j_writable : json_classes j_classes writable limited_numbers j_set.
Proof.
  eapply classes_mono; [exact exact_is_writable| | |exact j_exact].
  - intros c k. destruct k; cbn; auto; contradiction.
  - intros c. apply supplies_mono. intros v. apply ready_mono. exact exact_is_writable.
Qed.
Lemma j_any : json_classes j_classes any_scalar numbers_and_text j_set.
Proof.
  eapply classes_mono; [| | |exact j_exact].
  - intros x _. exact I.
  - intros c k. destruct k; cbn; auto.
  - intros c. apply supplies_mono. intros v. apply ready_mono. intros x _. exact I.
Qed.
Lemma j_all : json_classes j_classes writable (fun _ _ => True) j_set.
Proof. eapply classes_mono; [| | |exact j_writable]; auto. Qed.

Lemma j_ready : Forall (fun kv => json_ready writable j_set (snd kv)) j_vals.
Proof.
  assert (HL : forall c k g g0 s s' v, match k with KArray _ _ _ | KNested _ | KUnion _ _ _ => False | _ => True end ->
    limited_numbers c k -> bytes_ok (rest s) -> leaf_load c k g g0 s = (s', Ok v) -> json_ready writable j_set v).
  { intros c k g g0 s s' v. apply leaf_writable. }
  assert (HN : writable VNone) by discriminate.
  pose proof (load_ready j_classes writable limited_numbers j_set HN HL j_writable) as Hr.
  refine (struct_ready j_classes writable limited_numbers j_set HN j_writable 6%nat (Hr 6%nat) _ _ _ _ _ _ _ j_loads); [right; reflexivity|exact j_bytes].
Qed.
Lemma j_dict_exact : json_data exact_scalar (VDict j_dict).
Proof. apply round_same. eapply loaded_exact; [exact j_exact|right; reflexivity|exact j_bytes|exact j_loads|exact j_to_dict]. Qed.
