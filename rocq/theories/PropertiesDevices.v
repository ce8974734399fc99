(** C94: loading from streams that return less than asked for, or that cannot tell their position. *)
From Coq Require Import Lia.
From Verif Require Import SpecDevices DeviceProofs Samples.

(** On an [io.BytesIO] the calls made on the stream amount to the loaders of the other theorems. *)
Theorem C94_bytesio E m n cid ctx init s : blind_env E -> (length (s_data s) < m)%nat ->
  same (p_struct_from_stream E m n cid ctx init) (struct_from_stream E n cid ctx init) s.
Proof. exact (fun HE => same_struct_from_stream E m HE n cid ctx init s). Qed.
Print Assumptions C94_bytesio.

Theorem C94_bytesio_field E m n f ctx d s : blind_env E -> blind f -> (length (s_data s) < m)%nat ->
  same (p_field_from_stream E m n f ctx d) (field_from_stream E n f ctx d) s.
Proof. exact (fun HE => same_field_load E m HE n f ctx d s). Qed.
Print Assumptions C94_bytesio_field.

(** However few bytes each [read] returns, without nullable fields the result is the same or
    UnexpectedEOFError is raised, ... *)
Theorem C94_short_reads E m lim n cid ctx init s i : blind_env E -> everywhere not_null E -> (length (s_data s) < m)%nat ->
  let '(s', r) := struct_from_stream E n cid ctx init s in
  (exists i', run lim true (p_struct_from_stream E m n cid ctx init) s i = ((s', i'), Some r))
  \/ exists x e, is_eof e /\ run lim true (p_struct_from_stream E m n cid ctx init) s i = (x, Some (Raise e)).
Proof. exact (fun HE => struct_short_reads E m HE lim n cid ctx init s i). Qed.
Print Assumptions C94_short_reads.

Theorem C94_short_reads_field E m lim n f ctx d s i : blind_env E -> everywhere not_null E -> through not_null f -> blind f ->
  (length (s_data s) < m)%nat ->
  let '(s', r) := field_from_stream E n f ctx d s in
  (exists i', run lim true (p_field_from_stream E m n f ctx d) s i = ((s', i'), Some r))
  \/ exists x e, is_eof e /\ run lim true (p_field_from_stream E m n f ctx d) s i = (x, Some (Raise e)).
Proof. exact (fun HE => field_short_reads E m HE lim n f ctx d s i). Qed.
Print Assumptions C94_short_reads_field.

(** ... and always the same for variable-length integers, null-terminated strings, and what is
    made of them. *)
Theorem C94_bytewise E m lim n cid ctx init s i : blind_env E -> everywhere bytewise E -> (length (s_data s) < m)%nat ->
  let '(s', r) := struct_from_stream E n cid ctx init s in
  exists i', run lim true (p_struct_from_stream E m n cid ctx init) s i = ((s', i'), Some r).
Proof. exact (fun HE => struct_bytewise E m HE lim n cid ctx init s i). Qed.
Print Assumptions C94_bytewise.

Theorem C94_bytewise_field E m lim n f ctx d s i : blind_env E -> everywhere bytewise E -> through bytewise f -> blind f ->
  (length (s_data s) < m)%nat ->
  let '(s', r) := field_from_stream E n f ctx d s in
  exists i', run lim true (p_field_from_stream E m n f ctx d) s i = ((s', i'), Some r).
Proof. exact (fun HE => field_bytewise E m HE lim n f ctx d s i). Qed.
Print Assumptions C94_bytewise_field.

(** Structs of null-terminated strings can also be loaded from a stream that cannot tell or seek. *)
Theorem C94_sequential E m lim sk n cid ctx init s i : blind_env E -> everywhere sequential E -> (length (s_data s) < m)%nat ->
  let '(s', r) := struct_from_stream E n cid ctx init s in
  exists i', run lim sk (p_struct_from_stream E m n cid ctx init) s i = ((s', i'), Some r).
Proof. exact (fun HE => struct_sequential E m HE lim sk n cid ctx init s i). Qed.
Print Assumptions C94_sequential.

(** So can a UUID, if it arrives in one piece. *)
Theorem C94_uuid E m lim sk n f fmt size ctx d s i : blind_env E -> kind f = KUuid fmt -> c_size (conf f) = SInt size ->
  0 <= size <= zlen (rest s) -> allow_null (conf f) = false -> lim i = None -> blind f -> (length (s_data s) < m)%nat ->
  run_dict d (c_present (conf f) ctx (Some unseen)) = Ok true ->
  let '(s', r) := field_from_stream E n f ctx d s in
  run lim sk (p_field_from_stream E m n f ctx d) s i = ((s', S i), Some r) /\ s' = advance s (Z.to_nat size).
Proof. exact (fun HE => uuid_load E m HE lim sk n f fmt size ctx d s i). Qed.
Print Assumptions C94_uuid.

(** Numbers and sized strings cannot, whatever the data: not a byte is read. *)
Theorem C94_needs_tell E m lim n f ctx d s i : needs_tell f -> m <> O -> run_dict d (c_present (conf f) ctx (Some unseen)) = Ok true ->
  allow_null (conf f) = false -> run lim false (p_field_from_stream E m n f ctx d) s i = ((s, i), None).
Proof. exact (field_needs_tell E m lim n f ctx d s i). Qed.
Print Assumptions C94_needs_tell.

Theorem C94_struct_needs_tell E m lim n cid ctx init s i name f fs : comps E cid = (name, f) :: fs -> needs_tell f -> m <> O ->
  run_dict init (c_present (conf f) ctx (Some unseen)) = Ok true -> allow_null (conf f) = false ->
  run lim false (p_struct_from_stream E m n cid ctx init) s i = ((s, i), None).
Proof. exact (struct_needs_tell E m lim n cid ctx init s i name f fs). Qed.
Print Assumptions C94_struct_needs_tell.

(** Nor can any field with a null representation. *)
Theorem C94_nullable_needs_tell E m lim n f ctx d s i nr : run_dict d (c_present (conf f) ctx (Some unseen)) = Ok true ->
  allow_null (conf f) = true -> null_repr (do_dump E n) f d = Ok nr ->
  run lim false (p_field_from_stream E m n f ctx d) s i = ((s, i), None).
Proof. exact (nullable_needs_tell E m lim n f ctx d s i nr). Qed.
Print Assumptions C94_nullable_needs_tell.

(** ** Examples: a struct with a string and two bytes, and one with two strings *)

Definition u16 (c : fconf) : field := Field c (KInt false Big).
Definition stringz (name : string) : field := Field (basic name SNone) (KStringZ Ascii None).
Definition pair_E : env := [class_of "S" [named "t" (stringz "t"); named "x" (u16 (basic "x" (SInt 2)))]].
Definition text_E : env := [class_of "T" [named "t" (stringz "t"); named "u" (stringz "u")]].

(** One byte per read. *)
Definition trickle (i : nat) : option nat := Some 1%nat.

Lemma blind_leaf c k : c_present c = (fun _ _ => QRet true) ->
  match k with KArray _ _ _ | KUnion _ _ _ => False | _ => True end -> blind (Field c k).
Proof.
  intros Hc Hk. constructor; cbn [conf kind].
  - intros ctx s. rewrite Hc. auto.
  - intros comp cnt halt ->. contradiction.
  - intros choices ld dmp ->. contradiction.
Qed.

Lemma through_leaf (P : field -> Prop) c k : P (Field c k) -> match k with KArray _ _ _ | KUnion _ _ _ => False | _ => True end ->
  through P (Field c k).
Proof.
  intros Hp Hk. constructor; cbn [kind]; auto.
  - intros comp cnt halt ->. contradiction.
  - intros choices ld dmp ->. contradiction.
Qed.

Lemma comps_one (P : field -> Prop) name fs : (forall nf, In nf fs -> P (snd nf)) ->
  forall cid nm f, In (nm, f) (comps [class_of name fs] cid) -> P f.
Proof.
  intros H [|[|cid]] nm f Hin; [|destruct Hin|destruct Hin]. exact (H (nm, f) Hin).
Qed.

Lemma pair_blind : blind_env pair_E.
Proof.
  intros cid name f. unfold pair_E. apply (comps_one blind). intros nf [<-|[<-|[]]]; apply blind_leaf; cbn; auto.
Qed.

Lemma pair_not_null : everywhere not_null pair_E.
Proof.
  intros cid name f. unfold pair_E. apply (comps_one (through not_null)). intros nf [<-|[<-|[]]]; apply through_leaf; cbn; auto; reflexivity.
Qed.

Example C94_nonvacuous :
  blind_env pair_E /\ everywhere not_null pair_E /\ blind_env text_E /\ everywhere sequential text_E
  /\ snd (struct_from_stream pair_E 9 0 VNone [] (mkStream [65; 0; 1; 2] 0)) = Ok [("t"%string, VStr [65]); ("x"%string, VInt 258)]
  /\ (exists x, snd (run trickle true (p_struct_from_stream pair_E 9 9 0 VNone []) (mkStream [65; 0; 1; 2] 0) 0) = Some (Raise x) /\ is_eof x)
  /\ snd (run unlimited false (p_struct_from_stream pair_E 9 9 0 VNone []) (mkStream [65; 0; 1; 2] 0) 0) = None
  /\ snd (run trickle false (p_struct_from_stream text_E 9 9 0 VNone []) (mkStream [65; 0; 66; 0; 7] 0) 0)
     = Some (Ok [("t"%string, VStr [65]); ("u"%string, VStr [66])]).
Proof.
  split; [apply pair_blind|]. split; [apply pair_not_null|].
  split; [intros cid name f; unfold text_E; apply (comps_one blind); intros nf [<-|[<-|[]]]; apply blind_leaf; cbn; auto|].
  split; [intros cid name f; unfold text_E; apply (comps_one (through sequential)); intros nf [<-|[<-|[]]];
          apply through_leaf; cbn; auto; split; [reflexivity|exact I|reflexivity|exact I]|].
  split; [vm_compute; reflexivity|]. split; [|split; vm_compute; reflexivity].
  eexists. split; [vm_compute; reflexivity|]. eexists _, _, _. reflexivity.
Qed.

Definition ident : field := Field (basic "i" (SInt 16)) (KUuid BINARY_VARIANT_1).

Example C94_uuid_nonvacuous :
  blind ident /\ snd (run unlimited false (p_field_from_stream [] 99 9 ident VNone []) (mkStream (repeat 7 17) 0) 0)
                 = Some (Ok (VUUID (fold_left (fun a b => 256 * a + b) (repeat 7 16) 0))).
Proof. split; [apply blind_leaf; cbn; auto|vm_compute; reflexivity]. Qed.

(** Violated: UnexpectedEOFError means that the data has ended. *)
Theorem C94_eof_truthful_refuted :
  ~ (forall E m lim n cid ctx init s i x e, blind_env E -> everywhere not_null E -> (length (s_data s) < m)%nat ->
       run lim true (p_struct_from_stream E m n cid ctx init) s i = (x, Some (Raise e)) -> is_eof e ->
       exists s', struct_from_stream E n cid ctx init s = (s', Raise e)).
Proof.
  intros H. destruct C94_nonvacuous as (H1 & H2 & _ & _ & H5 & (e & H6 & H7) & _).
  specialize (H pair_E 9%nat trickle 9%nat 0%nat VNone [] (mkStream [65; 0; 1; 2] 0) 0%nat _ e H1 H2 ltac:(cbn; lia)
                (eq_trans (surjective_pairing _) (f_equal _ H6)) H7).
  destruct H as (s' & H). rewrite H in H5. discriminate.
Qed.
Print Assumptions C94_eof_truthful_refuted.

(** Violated with nullable fields: a value that is loaded is the one in the data.  Here the two null
    bytes standing for None arrive one after the other when peeked at, and are loaded as 0. *)
Definition maybe : field := u16 (with_null (VBytes [0; 0]) (basic "x" (SInt 2))).

Theorem C94_nullable_refuted :
  ~ (forall E m lim n f ctx d s i x v, blind_env E -> blind f -> (length (s_data s) < m)%nat ->
       run lim true (p_field_from_stream E m n f ctx d) s i = (x, Some (Ok v)) ->
       exists s', field_from_stream E n f ctx d s = (s', Ok v)).
Proof.
  intros H.
  assert (Hb : blind_env []) by (intros [|cid] name f []).
  assert (Hf : blind maybe) by (apply blind_leaf; cbn; auto).
  specialize (H [] 9%nat (fun i => match i with O => Some 1%nat | _ => None end) 9%nat maybe VNone [] (mkStream [0; 0] 0) 0%nat
                (mkStream [0; 0] 2, 2%nat) (VInt 0) Hb Hf ltac:(cbn; lia)).
  assert (E : run (fun i => match i with O => Some 1%nat | _ => None end) true (p_field_from_stream [] 9 9 maybe VNone []) (mkStream [0; 0] 0) 0
              = ((mkStream [0; 0] 2, 2%nat), Some (Ok (VInt 0)))) by (vm_compute; reflexivity).
  destruct (H E) as (s' & H'). vm_compute in H'. discriminate.
Qed.
Print Assumptions C94_nullable_refuted.
