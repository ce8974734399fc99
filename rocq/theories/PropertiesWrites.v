(** C96: dumping to streams whose [write] raises exceptions or writes only part of the data. *)
From Coq Require Import Lia.
From Verif Require Import SpecWrites WriteProofs Samples.

(** On a stream that writes everything, as [io.BytesIO] does, the calls of [write] amount to the
    dumpers of the other theorems. *)
Theorem C96_reliable dev E n f v ctx d i : reliable dev ->
  wrun dev (w_field_to_stream E n f v ctx d) i = field_to_stream E n f v ctx d.
Proof. exact (fun H => reliable_of dev _ _ (same_field_bytes E n f v ctx d) H i). Qed.
Print Assumptions C96_reliable.

Theorem C96_reliable_struct dev E n cid vals ctx i : reliable dev ->
  wrun dev (w_struct_to_stream E n cid vals ctx) i = struct_to_stream E n cid vals ctx.
Proof. exact (fun H => reliable_of dev _ _ (same_struct_bytes E n cid vals ctx) H i). Qed.
Print Assumptions C96_reliable_struct.

Theorem C96_reliable_partial_dump dev E n cid vals last ctx i : reliable dev ->
  wrun dev (w_partial_dump E n cid vals last ctx) i = partial_dump E n cid vals last ctx.
Proof. exact (fun H => reliable_of dev _ _ (same_partial_bytes E n cid vals last ctx) H i). Qed.
Print Assumptions C96_reliable_partial_dump.

(** A field is written by a single call with all its bytes, however it is nested, or not at all
    if it cannot be dumped. *)
Theorem C96_one_write E n f v ctx d :
  (exists bs, field_to_stream E n f v ctx d = (bs, Ok tt) /\ w_field_to_stream E n f v ctx d = WWrite bs (WDone (Ok tt)))
  \/ exists r, r <> Ok tt /\ field_to_stream E n f v ctx d = ([], r) /\ w_field_to_stream E n f v ctx d = WDone r.
Proof. exact (field_write E n f v ctx d). Qed.
Print Assumptions C96_one_write.

(** A struct is written by one call for each field that is present, in order. *)
Theorem C96_struct_writes E n cid vals ctx l : calls (w_struct_to_stream E n cid vals ctx) = (l, Ok tt)
  <-> exists all parts, validated E n cid vals /\ to_dict E n cid vals false = Ok all
      /\ Forall2 (field_call E n ctx all) (k_comps (cls E cid)) parts /\ l = concat parts.
Proof. exact (struct_calls E n cid vals ctx l). Qed.
Print Assumptions C96_struct_writes.

(** If [write] raises an exception, it is passed on, and the stream has the fields before, and
    of the field being written what [write] wrote. *)
Theorem C96_write_error dev E n cid vals ctx l i : honest dev -> calls (w_struct_to_stream E n cid vals ctx) = (l, Ok tt) ->
  wrun dev (w_struct_to_stream E n cid vals ctx) i = (concat l, Ok tt)
  \/ exists pre bs post k e, l = pre ++ bs :: post /\ dev (i + length pre)%nat bs = (k, Some e)
     /\ wrun dev (w_struct_to_stream E n cid vals ctx) i = (concat pre ++ firstn k bs, Raise e).
Proof. exact (struct_write_error dev E n cid vals ctx l i). Qed.
Print Assumptions C96_write_error.

(** What arrives is always the beginning of the dump, and all of it if no exception is raised. *)
Theorem C96_prefix dev E n cid vals ctx i : honest dev ->
  (exists rest, fst (struct_to_stream E n cid vals ctx) = fst (wrun dev (w_struct_to_stream E n cid vals ctx) i) ++ rest)
  /\ (snd (wrun dev (w_struct_to_stream E n cid vals ctx) i) = Ok tt ->
      wrun dev (w_struct_to_stream E n cid vals ctx) i = struct_to_stream E n cid vals ctx).
Proof. exact (fun H => honest_prefix dev _ _ (same_struct_bytes E n cid vals ctx) H i). Qed.
Print Assumptions C96_prefix.

Theorem C96_prefix_partial_dump dev E n cid vals last ctx i : honest dev ->
  (exists rest, fst (partial_dump E n cid vals last ctx) = fst (wrun dev (w_partial_dump E n cid vals last ctx) i) ++ rest)
  /\ (snd (wrun dev (w_partial_dump E n cid vals last ctx) i) = Ok tt ->
      wrun dev (w_partial_dump E n cid vals last ctx) i = partial_dump E n cid vals last ctx).
Proof. exact (fun H => honest_prefix dev _ _ (same_partial_bytes E n cid vals last ctx) H i). Qed.
Print Assumptions C96_prefix_partial_dump.

(** A disk with room for three bytes. *)
Definition w_E : env := [class_of "S" [named "x" (Field (basic "x" (SInt 2)) (KInt false Big)); named "y" (Field (basic "y" (SInt 2)) (KInt false Big))]].
Definition w_vals : dict := [("x", VInt 258); ("y", VInt 772)]%string.
Definition full_disk : wdevice := fun i bs => match i with O => (length bs, None) | _ => (1%nat, Some EValueErr) end.
Definition bytes_io : wdevice := fun _ bs => (length bs, None).

Example C96_nonvacuous :
  honest full_disk /\ reliable bytes_io
  /\ calls (w_struct_to_stream w_E 9 0 w_vals VNone) = ([[1; 2]; [3; 4]], Ok tt)
  /\ wrun bytes_io (w_struct_to_stream w_E 9 0 w_vals VNone) 0 = ([1; 2; 3; 4], Ok tt)
  /\ wrun full_disk (w_struct_to_stream w_E 9 0 w_vals VNone) 0 = ([1; 2; 3], Raise EValueErr)
  /\ wrun full_disk (w_partial_dump w_E 9 0 w_vals (Some "x"%string) VNone) 0 = ([1; 2], Ok tt).
Proof.
  split; [intros [|i] bs H; [cbn; lia|discriminate]|]. split; [intros i bs; cbn; auto|].
  repeat split; vm_compute; reflexivity.
Qed.

(** Violated for streams whose [write] may write less than it is given without raising an
    exception: when to_stream returns, the dump is on the stream.  What [write] returns is ignored. *)
Theorem C96_short_writes_refuted :
  ~ (forall dev E n cid vals ctx i, snd (wrun dev (w_struct_to_stream E n cid vals ctx) i) = Ok tt ->
       wrun dev (w_struct_to_stream E n cid vals ctx) i = struct_to_stream E n cid vals ctx).
Proof.
  intros H. specialize (H (fun _ _ => (1%nat, None)) w_E 9%nat 0%nat w_vals VNone 0%nat).
  assert (Hok : snd (wrun (fun _ _ => (1%nat, None)) (w_struct_to_stream w_E 9 0 w_vals VNone) 0) = Ok tt) by (vm_compute; reflexivity).
  specialize (H Hok). vm_compute in H. discriminate.
Qed.
Print Assumptions C96_short_writes_refuted.
