(** Witnesses used by PropertiesAccess.v. *)
From Verif Require Import Samples.
From Verif Require Export HistoryProofs SizeProofs.

Definition text_codec := Utf8.
Definition sized (name other : string) : fconf := basic name (SRef other).

(** n, data of n bytes *)
Definition ref_E : env :=
  [class_of "R" [named "n" (u8 (with_offset 0 (Some 0) (byte "n")));
                 named "data" (Field (with_offset 1 (Some 1) (sized "data" "n")) KBytes)]].

(** flag, x only if flag is 1, y *)
Definition opt_E : env :=
  [class_of "O" [named "flag" (u8 (with_offset 0 (Some 0) (byte "flag")));
                 named "x" (u8 (with_offset 1 (Some 1) (with_present if_flag VNotPresent (byte "x"))));
                 named "y" (u8 (with_offset 2 (Some 2) (byte "y")))]].

(** a StringZ of size 4, y *)
Definition strz_E : env :=
  [class_of "Z" [named "s" (Field (with_offset 0 (Some 0) (basic "s" (SInt 4))) (KStringZ Utf8 (Some 0)));
                 named "y" (u8 (with_offset 1 (Some 4) (byte "y")))]].

(** a field without a size but with a default *)
Definition dflt_E : env :=
  [class_of "D" [named "s" (Field (with_default (VStr [97]) (basic "s" SNone)) (KStringZ Utf8 None))]].

(** the same after one byte, with a default that the encoding cannot represent *)
Definition bad_dflt_E : env :=
  [class_of "B" [named "x" (u8 (byte "x"));
                 named "s" (Field (with_default (VStr [300]) (basic "s" SNone)) (KStringZ Ascii None))]].

(** two bytes, an array of three bytes, a string *)
Definition plain_E : env :=
  [class_of "P" [named "a" (u8 (with_offset 0 (Some 0) (byte "a")));
                 named "l" (Field (with_offset 1 (Some 1) (basic "l" (SInt 3)))
                              (KArray (u8 (byte "c")) (CntInt 3) None));
                 named "s" (Field (with_offset 2 (Some 4) (basic "s" SNone)) (KStringZ Utf8 None))]].
Definition plain_vals : dict :=
  [("s"%string, VStr [97; 98]); ("a"%string, VInt 7); ("l"%string, VList [VInt 1; VInt 2; VInt 3])].

Lemma basic_always name sz i o : always_present (with_offset i o (basic name sz)).
Proof. intros ctx so d. reflexivity. Qed.

Lemma basic_unconditional name sz i o : unconditional (with_offset i o (basic name sz)).
Proof. intros mem get keys ctx so. reflexivity. Qed.

Lemma well_formed_plain : well_formed (cls plain_E 0).
Proof.
  split; [repeat constructor; cbn; intuition discriminate|].
  split; [repeat constructor|]. intros name. cbn. tauto.
Qed.

Lemma plain_instance : instance_of plain_E 0 plain_vals.
Proof.
  split; [apply well_formed_plain|]. split.
  - repeat constructor; cbn; intuition discriminate.
  - intros x. cbn. tauto.
Qed.

Lemma plain_plain_data : plain_data plain_vals.
Proof.
  intros name v H. unfold plain_vals in H. cbn [dget] in H.
  destruct (String.eqb "s" name); [injection H as <-; repeat split; try discriminate; constructor; exact I|].
  destruct (String.eqb "a" name); [injection H as <-; repeat split; try discriminate; constructor; exact I|].
  destruct (String.eqb "l" name); [|discriminate].
  injection H as <-. repeat split; try discriminate. apply free_list.
  repeat constructor.
Qed.

Lemma simple_basic name sz k i o : simple (Field (with_offset i o (basic name sz)) k).
Proof.
  split; [apply basic_unconditional|]. split; auto. split; auto.
  exists VUndefined. split; auto. split; [constructor; exact I|discriminate].
Qed.

Lemma plain_simple : forall name f, In (name, f) (k_comps (cls plain_E 0)) ->
  simple f /\ self_contained plain_E f.
Proof.
  intros name f [H|[H|[H|[]]]]; injection H as <- <-; (split; [apply simple_basic|apply ref_free_contained]).
  - apply (rf_sized _ _ 1); auto.
  - apply rf_array; try discriminate. apply (rf_sized _ _ 1); auto.
  - apply rf_unsized; auto. intros [H|H]; discriminate.
Qed.

Lemma plain_consumes : Forall2 (fun nf m => consumes plain_E (snd nf) m)
  [named "a" (u8 (with_offset 0 (Some 0) (byte "a")));
   named "l" (Field (with_offset 1 (Some 1) (basic "l" (SInt 3)))
                              (KArray (u8 (byte "c")) (CntInt 3) None))] [1; 3].
Proof.
  assert (Hb : forall c, always_present c -> c_size c = SInt 1 -> c_null c = VUndefined -> consumes plain_E (u8 c) 1).
  { intros c Hp Hs Hn. apply leaf_consumes; auto; [lia|]. apply null_fits_none. auto. }
  constructor; [|constructor; [|constructor]]; cbn [snd named].
  - apply Hb; auto. apply basic_always.
  - refine (array_consumes plain_E _ _ 3 1 _ _ _).
    + apply basic_always.
    + apply Hb; auto. intros ctx so d. reflexivity.
    + apply null_fits_none. auto.
Qed.

Lemma plain_last_contained : load_contained plain_E
  (Field (with_offset 2 (Some 4) (basic "s" SNone)) (KStringZ Utf8 None)).
Proof.
  apply ref_less_load_contained; [|apply basic_unconditional].
  apply rl_leaf; [discriminate|exact I].
Qed.

(** get_field disagrees with a full load. *)
Lemma get_field_witness :
  (let s := mkStream [2; 8; 9] 0 in
   struct_from_stream ref_E 5 0 VNone [] s
     = (mkStream [2; 8; 9] 3, Ok [("n"%string, VInt 2); ("data"%string, VBytes [8; 9])])
   /\ get_field ref_E 5 0 "data" VNone s = (s, Raise (EMissingRequired (Some "n"%string))))
  /\ (let s := mkStream [0; 5; 7] 0 in
      (exists s' vals, struct_from_stream opt_E 5 0 VNone [] s = (s', Ok vals)
         /\ dget vals "y" = Some (VInt 5))
      /\ get_field opt_E 5 0 "y" VNone s = (s, Ok (VInt 7)))
  /\ (let s := mkStream [97; 0; 1; 2; 3] 0 in
      (exists s' vals, struct_from_stream strz_E 9 0 VNone [] s = (s', Ok vals)
         /\ dget vals "y" = Some (VInt 1))
      /\ get_field strz_E 9 0 "y" VNone s = (s, Ok (VInt 3))).
Proof.
  cbv zeta. split; [split; reflexivity|]. split; (split; [|reflexivity]); eexists; eexists; split; reflexivity.
Qed.

(** partial_dump cannot resolve a size given by another field. *)
Lemma partial_dump_witness :
  let vals := [("n"%string, VInt 2); ("data"%string, VBytes [8; 9])] in
  struct_to_stream ref_E 5 0 vals VNone = ([2; 8; 9], Ok tt)
  /\ partial_dump ref_E 5 0 vals (Some "data"%string) VNone
     = ([2], Raise (EMissingRequired (Some "n"%string))).
Proof. split; reflexivity. Qed.

(** get_size answers although dumps have different lengths; len() counts absent fields. *)
Lemma size_witness :
  get_size dflt_E 5 0 = Ok (Some 2)
  /\ struct_to_stream dflt_E 5 0 [("s"%string, VStr [97; 98; 99])] VNone = ([97; 98; 99; 0], Ok tt)
  /\ (let vals := [("flag"%string, VInt 0); ("y"%string, VInt 7)] in
      struct_to_stream opt_E 5 0 vals VNone = ([0; 7], Ok tt)
      /\ struct_len opt_E 5 0 vals = Ok 3).
Proof. cbv zeta. repeat split; reflexivity. Qed.

(** Class for the history example: [k] is a constant. *)
Definition hist_E : env :=
  [class_of "H" [named "a" (u8 (with_validators [at_most_9] (byte "a")));
                 named "k" (u8 (with_const (VInt 3) (byte "k")))]].

Lemma hist_instance : instance_of hist_E 0 [].
Proof.
  split.
  - split; [repeat constructor; cbn; intuition discriminate|].
    split; [repeat constructor|]. intros name. cbn. tauto.
  - split; [constructor|]. intros x [].
Qed.

Lemma hist_assignable : assignable hist_E 0 "a" (VInt 5).
Proof.
  exists (u8 (with_validators [at_most_9] (byte "a"))). split; [left; reflexivity|].
  repeat split. repeat constructor.
Qed.

Lemma plain_measurable : forall name f, In (name, f) (k_comps (cls plain_E 0)) ->
  simple f /\ measurable plain_E f.
Proof.
  intros name f H. destruct (plain_simple name f H) as [Hs Hc]. split; auto.
  unfold measurable. destruct (kind f); auto.
Qed.

Lemma plain_not_null : forall name f v, In (name, f) (k_comps (cls plain_E 0)) ->
  own_value plain_vals name (conf f) v -> v <> VNone /\ v <> VDefault.
Proof.
  intros name f v [H|[H|[H|[]]]] (dv & _ & ->); injection H as <- <-; split; discriminate.
Qed.

Lemma opt_fixed : fixed_sizes (k_comps (cls opt_E 0)) [1; 1; 1].
Proof. repeat constructor. Qed.

Lemma partial_dump_size_ref' E n ctx f name v :
  c_size (conf f) = SRef name -> v <> VNone -> v <> VUndefined -> v <> VDefault ->
  accepts (conf f) v ->
  (exists bs, do_dump E n f v ctx [] = (bs, Ok tt)) \/ kind f = KBytes ->
  field_to_stream E n f v ctx [] = ([], Raise (EMissingRequired (Some name))).
Proof.
  intros Hs H1 H2 H3 Ha Hk. apply partial_dump_size_ref; auto. destruct v; auto; congruence.
Qed.
