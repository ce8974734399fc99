(** A default value acts as a size when loading (C56). *)
From Verif Require Import Tac.
From Verif Require Export DeclMore.

Lemma default_is_size E n c k v z ctx d s :
  match k with KBytes | KString _ _ | KStringZ _ _ => True | _ => False end ->
  c_size c = SNone -> c_factory c = None -> c_default c = v -> v <> VUndefined -> v <> VNone ->
  size_for_value c k v = Ok (Some z) ->
  c_null c = VUndefined \/ c_null c = VDefault \/ (exists bs, c_null c = VBytes bs) ->
  oget d (c_name c) = None ->
  field_from_stream E n (Field c k) ctx d s = field_from_stream E n (Field (set_size (SInt z) c) k) ctx d s.
Proof.
  intros Hk Hs Hf Hd Hu Hn Hz Hnull Hx.
  assert (Hg : forall dd, get_expected_size_with dd c k d = Ok z).
  { intros dd. unfold get_expected_size_with. rewrite Hs. unfold expected_unsized. rewrite Hx.
    unfold default_of. rewrite Hf, Hd. cbn [bind].
    destruct v; try contradiction; cbn [is_undefined bind is_none]; rewrite Hz; reflexivity. }
  assert (Hg' : forall dd, get_expected_size_with dd (set_size (SInt z) c) k d = Ok z) by (intros dd; reflexivity).
  unfold field_from_stream, field_from_stream_with.
  assert (Hnr : null_repr (do_dump E n) (Field c k) d = null_repr (do_dump E n) (Field (set_size (SInt z) c) k) d).
  { unfold null_repr, ges. cbn [conf kind]. rewrite Hg, Hg'. unfold null_repr_with. cbn [set_size c_null c_name].
    destruct Hnull as [-> | [-> | (bs & ->)]]; auto. }
  rewrite Hnr.
  assert (Hdl : do_load E n (Field c k) ctx d = do_load E n (Field (set_size (SInt z) c) k) ctx d).
  { destruct n; destruct k; try contradiction; cbn [do_load kind conf leaf_load]; rewrite ?Hg, ?Hg'; reflexivity. }
  rewrite Hdl. reflexivity.
Qed.

(** data = Bytes(default=b"ab"); y = UInt8() *)
From Verif Require Import Samples.
Definition bytes_default_E : env :=
  [class_of "K" [named "data" (Field (with_default (VBytes [97; 98]) (basic "data" SNone)) KBytes);
                 named "y" (u8 (byte "y"))]].

Lemma bytes_default_witness :
  let vals := [("data"%string, VBytes [1; 2; 3]); ("y"%string, VInt 9)] in
  struct_to_bytes bytes_default_E 9 0 vals VNone = Ok [1; 2; 3; 9]
  /\ struct_from_bytes bytes_default_E 9 0 [1; 2; 3; 9] VNone true []
     = Ok [("data"%string, VBytes [1; 2]); ("y"%string, VInt 3)].
Proof. vm_compute. auto. Qed.
