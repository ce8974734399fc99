(** Consequences and witnesses used by PropertiesCanon.v. *)
From Verif Require Import Samples StreamProofs PyIntProofs.
From Verif Require Export CanonProofs.

Lemma redump_bytes E n cid data ctx exact vals : canonical_schema E -> bytes_ok data ->
  nan_free (VStruct cid vals) -> struct_from_bytes E n cid data ctx exact [] = Ok vals ->
  exists bs suf, data = bs ++ suf /\ (exact = true -> (length suf <= 1)%nat)
    /\ exists N, forall n' ctx', (N <= n')%nat -> struct_to_bytes E n' cid vals ctx' = Ok bs.
Proof.
  intros HS Hb Hnan H. unfold struct_from_bytes in H.
  destruct (struct_from_stream E n cid ctx [] (mkStream data 0)) as [s1 [vals'|e|]] eqn:Hl; try discriminate.
  cbv zeta in H. destruct (exact && (tell s1 <? zlen data - 1)) eqn:Hx; [discriminate|].
  injection H as ->.
  destruct (canonical_struct E HS n cid ctx (mkStream data 0) s1 vals Hb Hnan Hl) as (bs & R & A & N & W).
  exists bs, (rest s1). change (rest (mkStream data 0)) with data in R. split; [exact R|]. split.
  - intros ->. cbn [andb] in Hx. subst s1. unfold tell, zlen in Hx. cbn [advance s_pos s_data] in Hx.
    rewrite R in Hx at 1. rewrite app_length in Hx. lia.
  - exists N. intros n' ctx' Hn. unfold struct_to_bytes. rewrite W; auto.
Qed.

Lemma redump_injective E n n' cid ctx ctx' s s' s1 s1' vals : canonical_schema E ->
  bytes_ok (rest s) -> bytes_ok (rest s') -> nan_free (VStruct cid vals) ->
  struct_from_stream E n cid ctx [] s = (s1, Ok vals) ->
  struct_from_stream E n' cid ctx' [] s' = (s1', Ok vals) ->
  exists bs, rest s = bs ++ rest s1 /\ rest s' = bs ++ rest s1'.
Proof.
  intros HS Hb Hb' Hnan H H'.
  destruct (canonical_struct E HS n cid ctx s s1 vals Hb Hnan H) as (bs & R & _ & N & W).
  destruct (canonical_struct E HS n' cid ctx' s' s1' vals Hb' Hnan H') as (bs' & R' & _ & N' & W').
  specialize (W (N + N')%nat VNone ltac:(lia)). specialize (W' (N + N')%nat VNone ltac:(lia)).
  rewrite W in W'. injection W' as <-. exists bs. auto.
Qed.

Lemma redump_dict E n cid ctx s s1 vals : canonical_schema E -> bytes_ok (rest s) ->
  nan_free (VStruct cid vals) -> struct_from_stream E n cid ctx [] s = (s1, Ok vals) ->
  exists bs d N, rest s = bs ++ rest s1
    /\ recursive_to_dicts E N (VStruct cid vals) = Ok (VDict d)
    /\ struct_init E cid d = Ok d
    /\ forall n' ctx', (N <= n')%nat -> struct_to_stream E n' cid d ctx' = (bs, Ok tt).
Proof.
  intros HS Hb Hnan H.
  destruct (struct_redumped E HS n cid ctx s s1 vals (canonical_comp_ok E HS n ctx) Hb Hnan H)
    as (bs & u & N & R & _ & D & _ & I & W).
  exists bs, u, N. do 3 (split; [assumption|]). intros. apply W; auto.
Qed.

(** A discarded magic number, a flag, a number present if the flag is 1, a length and that
    many bytes of text, a nullable number, a choice made by the flag, an array with a counter
    of nested structs, and numbers up to the end of the data. *)
Definition flag_is_1 (v : value) : bool := match v with VInt 1 => true | _ => false end.
Definition flag_choice (v : value) : nat := if flag_is_1 v then 0%nat else 1%nat.
Definition record_E : env :=
  [class_of "Record"
     [named "magic" (Field (with_discard (with_const (VBytes [77; 90]) (basic "magic" (SInt 2)))) KBytes);
      named "flag" (u8 (byte "flag"));
      named "opt" (Field (with_present if_flag VNotPresent (basic "opt" (SInt 2))) (KInt true Big));
      named "size" (Field (basic "size" (SInt 2)) (KInt false Big));
      named "text" (Field (basic "text" (SRef "size")) (KString Utf8 None));
      named "w" (Field (with_null VNone (basic "w" (SInt 2))) (KInt true Big));
      named "pick" (Field (basic "pick" SNone)
         (KUnion [CField (u8 (byte "pick")); CStruct 1]
            (fun _ _ d => do v <- dget_res d "flag"; Ok (flag_choice v))
            (fun _ _ d => do v <- dget_res d "flag"; Ok (flag_choice v))));
      named "items" (Field (basic "items" SNone)
         (KArray (Field (basic "items" SNone) (KNested 1)) (CntRef "flag") None));
      named "tail" (Field (basic "tail" SNone)
         (KArray (Field (basic "tail" (SInt 2)) (KInt false Little)) CntNone None))];
   class_of "Item" [named "u" (Field (basic "u" (SInt 16)) (KUuid BINARY_VARIANT_2));
                    named "x" (Field (basic "x" (SInt 4)) (KFloat binary32 Big));
                    named "s" (Field (basic "s" SNone) (KStringZ Utf8 None))]].

Lemma record_canonical : canonical_schema record_E.
Proof.
  assert (Hun : forall name size, unconditional (basic name size)) by (intros ? ? ? ? ? ?; reflexivity).
  assert (Hst : forall known name size, steady known (basic name size)) by (intros; left; apply Hun).
  assert (Hdi : forall name size k, discard_ok (Field (basic name size) k)) by (intros ? ? ? H; discriminate H).
  assert (Hba : forall name size, bare (basic name size)) by (intros; repeat split; reflexivity).
  assert (Hint : forall known nats name m sg e, 0 <= m ->
    canonical record_E known nats (Field (basic name (SInt m)) (KInt sg e))).
  { intros known nats name m sg e Hm. apply canonical_of_leaf; [eapply canon_int; [reflexivity|auto]|left; reflexivity]. }
  assert (Hre : forall name size k, is_leaf k -> referable (Field (basic name size) k)).
  { intros name size k Hk. split; [exact Hk|]. split; [apply Hun|reflexivity]. }
  assert (Hna : forall name size e, natural_field (Field (basic name size) (KInt false e))).
  { intros name size e. split; [exact I|]. split; [reflexivity|]. left. intros ? ? ?. reflexivity. }
  intros [|[|cid]].
  - split; [|split; [|split; [|reflexivity]]].
    { split; [repeat constructor; cbn; intuition discriminate|].
      split; [repeat constructor|]. intros name. cbn. tauto. }
    2: { cbn. intros name methods H. repeat (destruct H as [H|H]; [congruence|]). destruct H. }
    cbn [cls nth record_E k_comps class_of].
    apply canon_other.
    { apply canonical_of_leaf; [|left; reflexivity].
      apply canon_bytes. left. exists 2. split; [reflexivity|lia]. }
    { left. intros ? ? ? ? ?. reflexivity. }
    { intros _. split; [exact I|]. split; [intros ? ? ? ? ?; reflexivity|]. repeat split. }
    apply canon_natural; [apply Hint; lia|apply Hre; exact I|apply Hna|].
    apply canon_other.
    { apply canonical_of_leaf; [eapply canon_int; [reflexivity|lia]|left; reflexivity]. }
    { right. split; [reflexivity|]. split; [reflexivity|]. exists "flag"%string, flag_is_1.
      split; [left; reflexivity|]. intros mem get keys ctx so. cbn.
      destruct (get "flag"%string) as [v|e|]; try reflexivity.
      destruct v as [| | | |[|[p|p|]|p]| | | | | | | | |]; reflexivity. }
    { intros H; discriminate H. }
    apply canon_natural; [apply Hint; lia|apply Hre; exact I|apply Hna|].
    apply canon_known.
    { apply canonical_of_leaf; [|left; reflexivity]. apply canon_string; [exact I|]. right.
      eexists. split; [reflexivity|left; reflexivity]. }
    { apply Hre; exact I. }
    apply canon_other.
    { apply canonical_of_leaf; [eapply canon_int; [reflexivity|lia]|].
      right. left. split; [left; reflexivity|]. left. exists 2. split; [reflexivity|lia]. }
    { left. intros ? ? ? ? ?. reflexivity. }
    { intros H; discriminate H. }
    apply canon_other; [|apply Hst|apply Hdi|].
    { eapply canonical_union with (name := "flag"%string) (pick := flag_choice); [apply Hba| | | | |]; try reflexivity.
      - left. reflexivity.
      - right. right. left. reflexivity.
      - intros g [Hg|[Hg|[]]]; [|discriminate]. injection Hg as <-. split; [reflexivity|].
        apply Hint. lia. }
    apply canon_other; [|apply Hst|apply Hdi|].
    { apply canonical_array; [apply Hba| | |apply Hun|]; [right; left; reflexivity|left; reflexivity|].
      apply canonical_nested; [apply Hba|]. left. reflexivity. }
    apply canon_other; [|apply Hst|apply Hdi|apply canon_nil].
    apply canonical_array; [apply Hba| | |apply Hun|]; [exact I|left; reflexivity|]. apply Hint. lia.
  - split; [|split; [|split; [|reflexivity]]].
    { split; [repeat constructor; cbn; intuition discriminate|].
      split; [repeat constructor|]. intros name. cbn. tauto. }
    2: { cbn. intros name methods H. repeat (destruct H as [H|H]; [congruence|]). destruct H. }
    cbn [cls nth record_E k_comps class_of].
    apply canon_other; [|apply Hst|apply Hdi|].
    { apply canonical_of_leaf; [|left; reflexivity]. apply canon_uuid; auto. }
    apply canon_other; [|apply Hst|apply Hdi|].
    { apply canonical_of_leaf; [|left; reflexivity]. eapply canon_float; [apply fk_single|reflexivity]. }
    apply canon_other; [|apply Hst|apply Hdi|apply canon_nil].
    apply canonical_of_leaf; [|left; reflexivity]. apply canon_stringz; [exact I|reflexivity].
  - unfold cls. cbn. destruct cid; (split; [|split; [|split; [|reflexivity]]]);
      try solve [split; constructor | constructor | intros ? ? []];
      split; [constructor|split; [constructor|intros ? []]| constructor|split; [constructor|intros ? []]].
Qed.

Definition item_uuid : list Z := [3; 2; 1; 0; 5; 4; 7; 6; 8; 9; 10; 11; 12; 13; 14; 15].
Definition record_1 : list Z :=
  [77; 90; 1; 255; 254; 0; 3; 97; 195; 169; 0; 0; 9] ++ item_uuid ++ [63; 192; 0; 0; 98; 0; 1; 0; 2; 1].
Definition record_2 : list Z :=
  [77; 90; 0; 0; 0; 1; 2] ++ item_uuid ++ [191; 192; 0; 0; 0].
Definition item (x : Z) (s : list Z) : value :=
  VStruct 1 [("u"%string, VUUID 5233100606242806050955395731361295);
             ("x"%string, VFloat x); ("s"%string, VStr s)].
Definition fields_1 : dict :=
  [("flag"%string, VInt 1); ("opt"%string, VInt (-2)); ("size"%string, VInt 3);
   ("text"%string, VStr [97; 233]); ("w"%string, VNone); ("pick"%string, VInt 9);
   ("items"%string, VList [item 4609434218613702656 [98]]);
   ("tail"%string, VList [VInt 1; VInt 258])].
Definition fields_2 : dict :=
  [("flag"%string, VInt 0); ("opt"%string, VNotPresent); ("size"%string, VInt 0);
   ("text"%string, VStr []); ("w"%string, VInt 258); ("pick"%string, item 13832806255468478464 []);
   ("items"%string, VList []); ("tail"%string, VList [])].

Lemma records_load :
  struct_from_bytes record_E 9 0 record_1 VNone true [] = Ok fields_1
  /\ struct_from_bytes record_E 9 0 record_2 VNone true [] = Ok fields_2.
Proof. split; vm_compute; reflexivity. Qed.

Lemma records_nan_free : nan_free (VStruct 0 fields_1) /\ nan_free (VStruct 0 fields_2).
Proof.
  assert (Hi : forall x s, exponent_field double x <> 2 ^ i_w double - 1 -> nan_free (item x s)).
  { intros x s Hx. apply nan_free_struct.
    constructor; [apply nan_free_scalar; exact I|]. constructor; [|constructor; [apply nan_free_scalar; exact I|constructor]].
    apply nan_free_float. intros [H _]. contradiction. }
  split; apply nan_free_struct; repeat (apply Forall_cons; [try solve [apply nan_free_scalar; exact I]|]);
    try apply Forall_nil.
  - apply nan_free_list. apply Forall_cons; [|apply Forall_nil]. apply Hi. vm_compute. discriminate.
  - apply nan_free_list. repeat constructor.
  - apply Hi. vm_compute. discriminate.
  - apply nan_free_list. constructor.
  - apply nan_free_list. constructor.
Qed.

(** Schemas that are not canonical: a variable-length integer, a UUID in text form, and a
    nested struct with an optional field. *)
Definition vli_E : env := [class_of "V" [named "x" (Field (basic "x" SNone) (KVli ULEB128 None))]].
Definition text_uuid_E : env :=
  [class_of "U" [named "x" (Field (basic "x" (SInt 32)) (KUuid HEX_STRING))]].
Definition nested_opt_E : env :=
  [class_of "Outer" [named "inner" (Field (basic "inner" (SInt 3)) (KNested 1))];
   class_of "Inner" [named "flag" (u8 (byte "flag"));
                     named "opt" (Field (with_present if_flag VNotPresent (basic "opt" (SInt 2))) (KInt true Big))]].

Lemma not_canonical_loads :
  (struct_from_bytes vli_E 9 0 [128; 0] VNone true [] = Ok [("x"%string, VInt 0)]
   /\ struct_to_bytes vli_E 9 0 [("x"%string, VInt 0)] VNone = Ok [0])
  /\ (struct_from_bytes text_uuid_E 9 0 (repeat 48 31 ++ [65]) VNone true [] = Ok [("x"%string, VUUID 10)]
   /\ struct_to_bytes text_uuid_E 9 0 [("x"%string, VUUID 10)] VNone = Ok (repeat 48 31 ++ [97])).
Proof. repeat split; vm_compute; reflexivity. Qed.

Definition inner_absent : dict :=
  [("inner"%string, VStruct 1 [("flag"%string, VInt 0); ("opt"%string, VNotPresent)])].
Lemma nested_opt_loads :
  get_size nested_opt_E 9 1 = Ok (Some 3)
  /\ struct_from_bytes nested_opt_E 9 0 [0] VNone true [] = Ok inner_absent
  /\ struct_to_bytes nested_opt_E 9 0 inner_absent VNone = Raise (EValueSize (Some "inner"%string)).
Proof. repeat split; vm_compute; reflexivity. Qed.
