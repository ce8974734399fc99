(** Consequences and witnesses used by PropertiesSettle.v. *)
From Coq Require Import String ZArith List Lia.
From Verif Require Import Samples StreamProofs PyIntProofs CanonWitness.
From Verif Require Export SettleProofs.
Import ListNotations.
Open Scope string_scope.
Open Scope list_scope.
Open Scope Z_scope.

Lemma settling_bytes E n cid data ctx exact vals : settling_schema E -> bytes_ok data ->
  nan_free (VStruct cid vals) -> struct_from_bytes E n cid data ctx exact [] = Ok vals ->
  exists bs N, forall n' ctx' exact', (N <= n')%nat -> struct_to_bytes E n' cid vals ctx' = Ok bs
    /\ struct_from_bytes E n' cid bs ctx' exact' [] = Ok vals.
Proof.
  intros HS Hb Hnan H. unfold struct_from_bytes in H.
  destruct (struct_from_stream E n cid ctx [] (mkStream data 0)) as [s1 [vals'|e|]] eqn:Hl; try discriminate.
  cbv zeta in H. destruct (exact && (tell s1 <? zlen data - 1)) eqn:Hx; [discriminate|].
  injection H as ->.
  destruct (settling_struct E HS n cid ctx (mkStream data 0) s1 vals Hb Hnan Hl) as (bs & N & W & R).
  exists bs, N. intros n' ctx' exact' Hn. split.
  - unfold struct_to_bytes. rewrite W; auto.
  - unfold struct_from_bytes. rewrite (R n' ctx' (mkStream bs 0) []); auto; [|symmetry; apply app_nil_r].
    cbv zeta. unfold tell. cbn [advance s_pos Nat.add].
    destruct (Z.of_nat (length bs) <? zlen bs - 1) eqn:He; [unfold zlen in He; lia|].
    destruct exact'; reflexivity.
Qed.

(** One struct after another. *)
Lemma settling_stream E n cid ctx s l s1 : settling_schema E -> bytes_ok (rest s) ->
  Forall (fun vals => nan_free (VStruct cid vals)) l -> reads_all E n cid ctx s l s1 ->
  exists bss N, (forall n' ctx', (N <= n')%nat ->
      Forall2 (fun vals bs => struct_to_stream E n' cid vals ctx' = (bs, Ok tt)) l bss)
    /\ forall n' ctx' s' suf, (N <= n')%nat -> rest s' = concat bss ++ suf -> (rest s1 = [] -> suf = []) ->
         reads_all E n' cid ctx' s' l (advance s' (length (concat bss))).
Proof.
  intros HS Hb Hnan H.
  assert (Hmore : exists bss N, used_up s s1 (concat bss)
    /\ (forall n' ctx', (N <= n')%nat ->
          Forall2 (fun vals bs => struct_to_stream E n' cid vals ctx' = (bs, Ok tt)) l bss)
    /\ forall n' ctx' s' suf, (N <= n')%nat -> rest s' = concat bss ++ suf -> (rest s1 = [] -> suf = []) ->
         reads_all E n' cid ctx' s' l (advance s' (length (concat bss)))).
  2:{ destruct Hmore as (bss & N & _ & Hm). eauto. }
  induction H as [s|s vals s2 l s1 Hl _ IH].
  - exists [], O. split; [apply used_up_nil|]. split; [constructor|].
    intros n' ctx' s' suf _ _ _. cbn [concat length]. rewrite advance_0. constructor.
  - inversion Hnan as [|? ? Hv Hnan']; subst.
    destruct (struct_resettled E HS n cid ctx s s2 vals (settling_comp E HS n ctx) Hb Hv Hl)
      as (bs & u & N & U & _ & _ & _ & W & R).
    destruct IH as (bss & N' & U' & W' & R'); auto.
    { destruct U as (cs & Hr & _). rewrite Hr in Hb. unfold bytes_ok in *. apply Forall_app in Hb. tauto. }
    exists (bs :: bss), (Nat.max N N'). cbn [concat]. split; [eapply used_up_app; eauto|]. split.
    + intros n' ctx' Hn'. constructor; [apply W; lia|apply W'; lia].
    + intros n' ctx' s' suf Hn' Hr Hend. rewrite <- app_assoc in Hr.
      eapply reads_next.
      * apply (R n' ctx' s' (concat bss ++ suf)); auto; [lia|].
        intros Hr1. destruct (used_up_end _ _ _ U' Hr1) as [-> Hr2]. rewrite Hend; auto.
      * rewrite app_length, <- advance_advance. apply (R' n' ctx' _ suf); auto; [lia|].
        exact (rest_advance_app _ _ _ Hr).
Qed.

(** A length of two forms, an identifier as text, a name in a code page in which "A" has two
    bytes, a title with byte order mark, a choice, nested structs, and numbers to the end. *)
Definition two_As : list (option Z) := [Some 65; Some 65; Some 66].
Definition forms_E : env :=
  [class_of "Forms"
     [named "n" (Field (basic "n" SNone) (KVli ULEB128 None));
      named "id" (Field (basic "id" (SInt 32)) (KUuid HEX_STRING));
      named "name" (Field (basic "name" (SRef "n")) (KString (Charmap two_As) None));
      named "title" (Field (basic "title" SNone) (KStringZ (Utf16Bom Little) None));
      named "pick" (Field (basic "pick" SNone)
         (KUnion [CField (Field (basic "pick" SNone) (KVli VLQ None)); CStruct 1]
            (fun _ _ d => do v <- dget_res d "n"; Ok (flag_choice v))
            (fun _ _ d => do v <- dget_res d "n"; Ok (flag_choice v))));
      named "items" (Field (basic "items" SNone)
         (KArray (Field (basic "items" SNone) (KNested 1)) (CntRef "n") None));
      named "tail" (Field (basic "tail" SNone)
         (KArray (Field (basic "tail" SNone) (KVli LEB128 None)) CntNone None))];
   class_of "Item" [named "k" (Field (with_null VNone (basic "k" (SInt 2))) (KInt false Big));
                    named "v" (Field (basic "v" SNone) (KVli COMPACT_INDICES None))]].

Lemma forms_settling : settling_schema forms_E.
Proof.
  assert (Hun : forall name size, unconditional (basic name size)) by (intros ? ? ? ? ? ?; reflexivity).
  assert (Hst : forall known name size, steady known (basic name size)) by (intros; left; apply Hun).
  assert (Hdi : forall name size k, discard_ok (Field (basic name size) k)) by (intros ? ? ? H; discriminate H).
  assert (Hba : forall name size, bare (basic name size)) by (intros; repeat split; reflexivity).
  assert (Hvli : forall known nats name fmt, settling forms_E known nats (Field (basic name SNone) (KVli fmt None))).
  { intros known nats name fmt. apply settling_of_leaf. apply settle_several; [|reflexivity].
    apply several_vli. reflexivity. }
  intros [|[|cid]].
  - split; [|split; [|split; [|reflexivity]]].
    { split; [repeat constructor; cbn; intuition discriminate|].
      split; [repeat constructor|]. intros name. cbn. tauto. }
    2: { cbn. intros name methods H. repeat (destruct H as [H|H]; [congruence|]). destruct H. }
    cbn [cls nth forms_E k_comps class_of].
    apply settles_natural; [apply Hvli| | |].
    { split; [exact I|]. split; [apply Hun|reflexivity]. }
    { split; [exact I|]. split; [reflexivity|]. left. intros ? ? ?. reflexivity. }
    apply settles_other; [|apply Hst|apply Hdi|].
    { apply settling_of_leaf. apply settle_several; [|reflexivity]. apply several_uuid. right. split; reflexivity. }
    apply settles_other; [|apply Hst|apply Hdi|].
    { apply settling_of_leaf. apply settle_several; [|reflexivity]. apply several_page. right.
      eexists. split; [reflexivity|left; reflexivity]. }
    apply settles_other; [|apply Hst|apply Hdi|].
    { apply settling_of_leaf. apply settle_several; [|reflexivity]. apply several_text; reflexivity. }
    apply settles_other; [|apply Hst|apply Hdi|].
    { eapply settling_union with (name := "n"%string) (pick := flag_choice); [apply Hba| | | | |]; try reflexivity.
      - left. reflexivity.
      - left. reflexivity.
      - intros g [Hg|[Hg|[]]]; [|discriminate]. injection Hg as <-. split; [reflexivity|].
        split; [right; reflexivity|]. apply Hvli. }
    apply settles_other; [|apply Hst|apply Hdi|].
    { apply settling_array; [apply Hba| | | |apply Hun|]; [left; reflexivity|left; reflexivity|right; reflexivity|].
      apply settling_nested; [apply Hba|]. left. reflexivity. }
    apply settles_other; [|apply Hst|apply Hdi|apply settles_nil].
    apply settling_array; [apply Hba| | | |apply Hun|]; [exact I|left; reflexivity|right; reflexivity|]. apply Hvli.
  - split; [|split; [|split; [|reflexivity]]].
    { split; [repeat constructor; cbn; intuition discriminate|].
      split; [repeat constructor|]. intros name. cbn. tauto. }
    2: { cbn. intros name methods H. repeat (destruct H as [H|H]; [congruence|]). destruct H. }
    cbn [cls nth forms_E k_comps class_of].
    apply settles_other; [| |intros H; discriminate H|].
    { apply settling_of_leaf. apply settle_one.
      - eapply canon_int; [reflexivity|lia].
      - right. left. split; [left; reflexivity|]. left. exists 2. split; [reflexivity|lia].
      - apply dnull_zeros; [left; reflexivity|exact I]. }
    { left. intros ? ? ? ? ?. reflexivity. }
    apply settles_other; [apply Hvli|apply Hst|apply Hdi|apply settles_nil].
  - unfold cls. cbn. destruct cid; (split; [|split; [|split; [|reflexivity]]]);
      try solve [split; constructor | constructor | intros ? ? []];
      split; [constructor|split; [constructor|intros ? []]| constructor|split; [constructor|intros ? []]].
Qed.

(** The length 2 in two bytes, capital digits, the other "A", a big-endian title, and so on. *)
Definition forms_data : list Z :=
  [130; 0] ++ repeat 48 30 ++ [65; 70] ++ [1; 3] ++ [254; 255; 0; 72; 0; 0]
  ++ [0; 0; 192; 0] ++ [0; 7; 1; 0; 0; 2] ++ [255; 127; 128; 128; 0].
Definition forms_kept : list Z :=
  [2] ++ repeat 48 30 ++ [97; 102] ++ [2; 3] ++ [255; 254; 72; 0; 0; 0]
  ++ [0; 0; 0] ++ [0; 7; 1; 0; 0; 2] ++ [127; 0].
Definition form_item (k : value) (v : Z) : value := VStruct 1 [("k", k); ("v", VInt v)].
Definition forms_fields : dict :=
  [("n", VInt 2); ("id", VUUID 175); ("name", VStr [65; 66]); ("title", VStr [72]);
   ("pick", form_item VNone 0); ("items", VList [form_item (VInt 7) 1; form_item VNone 2]);
   ("tail", VList [VInt (-1); VInt 0])].
Lemma forms_load : struct_from_bytes forms_E 12 0 forms_data VNone true [] = Ok forms_fields
  /\ struct_to_bytes forms_E 12 0 forms_fields VNone = Ok forms_kept
  /\ struct_from_bytes forms_E 12 0 forms_kept VNone true [] = Ok forms_fields.
Proof. vm_compute. auto. Qed.
Lemma forms_nan_free : nan_free (VStruct 0 forms_fields).
Proof.
  assert (Hi : forall k v, match k with VInt _ | VNone => True | _ => False end -> nan_free (form_item k v)).
  { intros k v Hk. apply nan_free_struct. constructor; [destruct k; try destruct Hk; apply nan_free_scalar; exact I|].
    constructor; [apply nan_free_scalar; exact I|constructor]. }
  apply nan_free_struct. repeat (apply Forall_cons; [try solve [apply nan_free_scalar; exact I]|]); try apply Forall_nil.
  - apply Hi. exact I.
  - apply nan_free_list. repeat (apply Forall_cons; [apply Hi; exact I|]). constructor.
  - apply nan_free_list. repeat (apply Forall_cons; [apply nan_free_scalar; exact I|]). constructor.
Qed.

(** Where it fails. *)
Definition null_vli_E : env :=
  [class_of "S" [named "x" (Field (with_null (VBytes [0]) (basic "x" SNone)) (KVli ULEB128 None))]].
Lemma null_vli_rewritten :
  struct_from_bytes null_vli_E 9 0 [128; 0] VNone true [] = Ok [("x", VInt 0)]
  /\ struct_to_bytes null_vli_E 9 0 [("x", VInt 0)] VNone = Ok [0]
  /\ struct_from_bytes null_vli_E 9 0 [0] VNone true [] = Ok [("x", VNone)].
Proof. vm_compute. auto. Qed.

Definition short_vli_E : env :=
  [class_of "S" [named "x" (Field (basic "x" SNone) (KVli ULEB128 (Some 1)))]].
Lemma short_vli_rewritten :
  struct_from_bytes short_vli_E 9 0 [128; 1] VNone true [] = Ok [("x", VInt 128)]
  /\ exists e, struct_to_bytes short_vli_E 9 0 [("x", VInt 128)] VNone = Raise e.
Proof. split; [reflexivity|]. eexists. vm_compute. reflexivity. Qed.

Definition stamp_E : env :=
  [class_of "S" [named "t" (Field (basic "t" (SInt 4)) (KTime ResUs false true Little))]].
Lemma stamp_rewritten :
  struct_from_bytes stamp_E 9 0 [79; 15; 0; 0] VNone true [] = Ok [("t", VTime 3919 false)]
  /\ struct_to_bytes stamp_E 9 0 [("t", VTime 3919 false)] VNone = Ok [78; 15; 0; 0]
  /\ struct_from_bytes stamp_E 9 0 [78; 15; 0; 0] VNone true [] = Ok [("t", VTime 3918 false)]
  /\ struct_to_bytes stamp_E 9 0 [("t", VTime 3918 false)] VNone = Ok [77; 15; 0; 0].
Proof. vm_compute. auto. Qed.
