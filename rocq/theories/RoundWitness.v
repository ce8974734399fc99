(** Witnesses used by PropertiesRound.v. *)
From Verif Require Import Samples.
From Verif Require Export RoundProofs.

Definition inner_class : classdef :=
  class_of "Inner" [named "v" (Field (basic "v" SNone) (KVli LEB128 None));
                    named "s" (Field (basic "s" SNone) (KStringZ Utf8 None))].

(** [present=lambda f, *_: not f["flag"]] *)
Definition unless_flag : value -> option stream -> query bool :=
  fun _ _ => QGet "flag" (fun r => match r with
                                  | inl (VInt 1) => QRet false
                                  | inl _ => QRet true
                                  | inr e => QRaise e
                                  end).

Definition by_kind (v : value) : nat := match v with VInt 1 => 1%nat | _ => 0%nat end.

(** A discarded magic number, a flag deciding which of two fields is present, a count and
    that many nullable 16-bit numbers, a length and that many bytes, a kind deciding what the
    union holds, a nested struct, and strings up to the end of the data. *)
Definition item : field := Field (with_null (VBytes [128; 0]) (basic "items" (SInt 2))) (KInt true Big).
Definition word : field := Field (basic "words" SNone) (KStringZ Utf8 None).
Definition round_E : env :=
  [class_of "Outer"
     [named "magic" (Field (with_discard (with_const (VBytes [77; 90]) (basic "magic" (SInt 2)))) KBytes);
      named "flag" (u8 (byte "flag"));
      named "opt" (u8 (with_present if_flag VNone (byte "opt")));
      named "alt" (u8 (with_present unless_flag VNone (byte "alt")));
      named "count" (u8 (byte "count"));
      named "items" (Field (basic "items" SNone) (KArray item (CntRef "count") None));
      named "size" (u8 (byte "size"));
      named "data" (Field (basic "data" (SRef "size")) KBytes);
      named "kind" (u8 (byte "kind"));
      named "choice" (Field (basic "choice" SNone)
                        (KUnion [CField (u8 (byte "choice")); CStruct 1]
                           (fun _ _ d => do v <- dget_res d "kind"; Ok (by_kind v))
                           (fun _ _ d => do v <- dget_res d "kind"; Ok (by_kind v))));
      named "one" (Field (basic "one" SNone) (KNested 1));
      named "words" (Field (basic "words" SNone) (KArray word CntNone None))];
   inner_class].

Definition inner_val (z : Z) (t : list Z) : dict := [("v"%string, VInt z); ("s"%string, VStr t)].
Definition round_vals : dict :=
  [("flag"%string, VInt 1); ("opt"%string, VInt 7);
   ("count"%string, VInt 3); ("items"%string, VList [VInt (-2); VNone; VInt 258]);
   ("size"%string, VInt 3); ("data"%string, VBytes [9; 8; 7]);
   ("kind"%string, VInt 1); ("choice"%string, VDict (inner_val (-1) []));
   ("one"%string, VStruct 1 (inner_val 300 [97; 98]));
   ("words"%string, VList [VStr [233]; VStr []]); ("alt"%string, VInt 0)].
Definition round_bytes : list Z :=
  [77; 90; 1; 7; 3; 255; 254; 128; 0; 1; 2; 3; 9; 8; 7; 1; 127; 0; 172; 2; 97; 98; 0; 195; 169; 0; 0].
Definition round_dict : dict :=
  [("flag"%string, VInt 1); ("opt"%string, VInt 7);
   ("count"%string, VInt 3); ("items"%string, VList [VInt (-2); VNone; VInt 258]);
   ("size"%string, VInt 3); ("data"%string, VBytes [9; 8; 7]);
   ("kind"%string, VInt 1); ("choice"%string, VDict (inner_val (-1) []));
   ("one"%string, VDict (inner_val 300 [97; 98]));
   ("words"%string, VList [VStr [233]; VStr []]); ("alt"%string, VNotPresent)].

Lemma round_dump : struct_to_stream round_E 9 0 round_vals VNone = (round_bytes, Ok tt).
Proof. vm_compute. reflexivity. Qed.

Lemma round_to_dict : to_dict round_E 9 0 round_vals false = Ok round_dict.
Proof. vm_compute. reflexivity. Qed.

Lemma round_instance : instance_of round_E 0 round_vals.
Proof.
  split; [|split].
  - split; [repeat constructor; cbn; intuition discriminate|].
    split; [repeat constructor|]. intros name. cbn. tauto.
  - repeat constructor; cbn; intuition discriminate.
  - intros x. cbn. tauto.
Qed.

Ltac split_list H :=
  lazymatch type of H with
  | [] = ?pre ++ _ => destruct pre; discriminate
  | _ :: _ = ?pre ++ _ =>
    destruct pre as [|? pre]; cbn [app] in H;
    [injection H as <- <- <-|injection H as <- H; split_list H]
  end.

Lemma round_straight : straight_class (cls round_E 0).
Proof.
  split; [apply round_instance|]. split; [intros name ms H; cbn in H; intuition congruence|].
  reflexivity.
Qed.

Lemma inner_straight : straight_class inner_class.
Proof.
  split.
  { split; [repeat constructor; cbn; intuition discriminate|].
    split; [repeat constructor|]. intros name. cbn. tauto. }
  split; [intros name ms H; cbn in H; intuition congruence|]. reflexivity.
Qed.

Lemma always known d c : c_present c = (fun _ _ => QRet true) -> shown known d c true.
Proof. intros H. left. split; auto. intros ? ? ? ? ?. rewrite H. reflexivity. Qed.

(** A leaf that is always present, not nullable and not constant. *)
Lemma plain_leaf E known last d c k v : c_present c = (fun _ _ => QRet true) -> c_null c = VUndefined ->
  c_const c = VUndefined -> is_leaf k -> incl (size_refs (c_size c)) known -> leaf_suits c d k v ->
  suits E known last d (Field c k) v.
Proof.
  intros Hp Hn Hc Hk Hi Hl.
  apply suits_value; auto using always; [left; auto|apply holds_leaf; auto].
Qed.

(** A container of that sort, without validators. *)
Lemma plain_container E known last d c k v : c_present c = (fun _ _ => QRet true) ->
  c_null c = VUndefined -> c_const c = VUndefined -> c_validators c = [] -> c_size c = SNone ->
  holds E known last d (Field c k) v -> suits E known last d (Field c k) v.
Proof.
  intros Hp Hn Hc Hv Hs Hh. apply suits_value; auto using always; [|left; auto].
  rewrite Hs. intros x [].
Qed.

Lemma inner_holds last z t : Forall (fun cp => cp <> 0) t -> holds_struct round_E last 1 (inner_val z t).
Proof.
  intros Ht. apply holds_all; [exact inner_straight|..].
  - split; [repeat constructor; cbn; intuition discriminate|]. intros nm. cbn.
    split; [intros [<-|[<-|[]]]; eexists; split; eauto|].
    intros (f & [H|[H|[]]] & _); injection H as <- <-; auto.
  - intros pre nm f post H Hd. cbn in H. split_list H; discriminate Hd.
  - intros pre nm f post H Hx. cbn in H. split_list H; discriminate Hx.
  - intros pre nm f post x H Hx _. cbn in H.
    split_list H; cbn in Hx; injection Hx as <-;
      (apply plain_leaf; try reflexivity; [intros ? []|]); constructor; auto.
Qed.

Lemma inner_instance : instance_of round_E 1 (inner_val 300 [97; 98]).
Proof.
  split; [apply inner_straight|]. split; [repeat constructor; cbn; intuition discriminate|].
  intros x. cbn. tauto.
Qed.
Lemma inner_dump :
  struct_to_stream round_E 9 1 (inner_val 300 [97; 98]) VNone = ([172; 2; 97; 98; 0], Ok tt).
Proof. vm_compute. reflexivity. Qed.
Lemma inner_to_dict : to_dict round_E 9 1 (inner_val 300 [97; 98]) false = Ok (inner_val 300 [97; 98]).
Proof. vm_compute. reflexivity. Qed.
Lemma inner_example : holds_struct round_E false 1 (inner_val 300 [97; 98]).
Proof. apply inner_holds. repeat constructor; discriminate. Qed.

Lemma item_null known last : suits round_E known last round_dict item VNone.
Proof.
  eapply suits_null; [apply always; reflexivity|intros ? []|]. apply null_given. reflexivity.
Qed.

Lemma item_number known last z : z = -2 \/ z = 258 -> suits round_E known last round_dict item (VInt z).
Proof.
  intros Hz. apply suits_value.
  - apply always. reflexivity.
  - intros ? [].
  - right. split; [split; [discriminate|]; right; right; left; eexists; split; [reflexivity|discriminate]|].
    exists [128; 0]. split; [apply null_given; reflexivity|]. intros n ctx bs H. exists O.
    destruct Hz as [-> | ->]; destruct n; vm_compute in H; injection H as <-;
      do 2 eexists; (split; [reflexivity|split; [reflexivity|discriminate]]).
  - left. reflexivity.
  - left. exact I.
  - apply holds_leaf; [intros ? []|]. econstructor. reflexivity.
Qed.

Lemma word_suits known last t : Forall (fun cp => cp <> 0) t -> suits round_E known last round_dict word (VStr t).
Proof.
  intros Ht. apply plain_leaf; try reflexivity; [intros ? []|]. constructor; auto.
Qed.

Lemma round_holds : holds_struct round_E true 0 round_dict.
Proof.
  apply holds_all; [exact round_straight|..].
  - split; [repeat constructor; cbn; intuition discriminate|]. intros nm. cbn. split.
    + intros H. repeat (destruct H as [<-|H]; [eexists; split; [eauto 15|reflexivity]|]). destruct H.
    + intros (f & H & Hd).
      repeat (destruct H as [H|H]; [injection H as <- <-; solve [discriminate Hd|auto 15]|]). destruct H.
  - intros pre nm f post H Hd. cbn in H. split_list H; try discriminate Hd.
    split; [intros ? ? ? ? ?; reflexivity|]. repeat (split; [try reflexivity; intros ? []|]).
    apply suits_bytes. left. reflexivity.
  - intros pre nm f post H Hx. cbn in H. split_list H; try discriminate Hx.
    split; [|split; [reflexivity|constructor]].
    right. exists "flag"%string, (fun v => match v with VInt 1 => false | _ => true end), (VInt 1).
    split; [right; left; reflexivity|]. repeat (split; [try reflexivity; try exact I|]).
    intros mem get keys ctx so. cbn. destruct (get "flag"%string) as [[]| |]; try reflexivity.
    destruct z as [|[]|]; reflexivity.
  - intros pre nm f post x H Hx Hne. cbn in H. split_list H; cbn in Hx; try discriminate Hx;
      injection Hx as <-; try (destruct Hne; reflexivity);
      try (apply plain_leaf; try reflexivity; [intros ? []|econstructor; reflexivity]).
    + apply suits_value.
      * right. exists "flag"%string, (fun v => match v with VInt 1 => true | _ => false end), (VInt 1).
        split; [right; left; reflexivity|]. repeat (split; [try reflexivity; try exact I|]).
        intros mem get keys ctx so. cbn. destruct (get "flag"%string) as [[]| |]; try reflexivity.
        destruct z as [|[]|]; reflexivity.
      * intros ? [].
      * left. reflexivity.
      * left. reflexivity.
      * left. exact I.
      * apply holds_leaf; [intros ? []|]. econstructor. reflexivity.
    + apply plain_container; try reflexivity. apply holds_array; auto.
      * intros ? [<-|[]]. cbn. auto 10.
      * right. eexists. split; reflexivity.
      * intros x [<-|[<-|[<-|[]]]]; auto using item_null, item_number.
    + apply plain_leaf; try reflexivity; [intros ? [<-|[]]; cbn; auto 10|].
      apply suits_bytes. right. eexists. split; reflexivity.
    + apply plain_container; try reflexivity.
      eapply (holds_union_struct round_E _ _ _ _ _ _ _ "kind"%string (VInt 1) by_kind); try reflexivity.
      * cbn. auto 15.
      * apply inner_holds. constructor.
    + apply plain_container; try reflexivity. apply holds_nested. apply inner_holds.
      repeat constructor; discriminate.
    + apply plain_container; try reflexivity. apply holds_rest; auto.
      * intros x [<-|[<-|[]]]; apply word_suits; repeat constructor; discriminate.
      * intros x n ctx [<-|[<-|[]]]; destruct n; vm_compute; discriminate.
Qed.

(** A single-precision number and timestamps of fine resolution. *)
Definition numbers_E : env :=
  [class_of "Numbers"
     [named "f" (Field (basic "f" (SInt 4)) (KFloat binary32 Big));
      named "ms" (Field (basic "ms" (SInt 8)) (KTime ResMs true true Big));
      named "ns" (Field (basic "ns" (SInt 8)) (KTime ResNs false true Big))]].
Definition numbers_vals : dict :=
  [("f"%string, VFloat 4609434218613702656); ("ms"%string, VTime (1700000000 * 1000000) true);
   ("ns"%string, VTime 1700000000123456 false)].
Definition numbers_bytes : list Z :=
  [63; 192; 0; 0; 0; 0; 1; 139; 207; 229; 104; 0; 23; 151; 156; 254; 61; 133; 202; 0].

Lemma numbers_instance : instance_of numbers_E 0 numbers_vals.
Proof.
  split; [|split].
  - split; [repeat constructor; cbn; intuition discriminate|].
    split; [repeat constructor|]. intros name. cbn. tauto.
  - repeat constructor; cbn; intuition discriminate.
  - intros x. cbn. tauto.
Qed.

Lemma numbers_holds : holds_struct numbers_E true 0 numbers_vals.
Proof.
  apply holds_all.
  - split.
    { split; [repeat constructor; cbn; intuition discriminate|].
      split; [repeat constructor|]. intros name. cbn. tauto. }
    split; [intros name ms H; cbn in H; intuition congruence|]. reflexivity.
  - split; [repeat constructor; cbn; intuition discriminate|]. intros nm. cbn.
    split; [intros [<-|[<-|[<-|[]]]]; eexists; split; eauto|].
    intros (f & [H|[H|[H|[]]]] & _); injection H as <- <-; auto.
  - intros pre nm f post H Hd. cbn in H. split_list H; discriminate Hd.
  - intros pre nm f post H Hx. cbn in H. split_list H; discriminate Hx.
  - intros pre nm f post x H Hx _. cbn in H.
    split_list H; cbn in Hx; injection Hx as <-; (apply plain_leaf; try reflexivity; [intros ? []|]).
    + apply (suits_narrow _ _ single _ Big _ 1069547520); [constructor|reflexivity|].
      unfold same_number, pattern, is_nan, is_finite. vm_compute.
      repeat split; try congruence; try (intros [? ?]; discriminate). left. repeat split.
    + change 1700000000000000 with (1700000000 * 1000000). apply suits_fine with (n := 8); auto. unfold is_datetime. lia.
    + apply suits_nanos with (n := 8); [reflexivity|]. lia.
Qed.

Lemma numbers_dump : struct_to_stream numbers_E 9 0 numbers_vals VNone = (numbers_bytes, Ok tt).
Proof. vm_compute. reflexivity. Qed.

Lemma numbers_to_dict : to_dict numbers_E 9 0 numbers_vals false = Ok numbers_vals.
Proof. vm_compute. reflexivity. Qed.
