(** The example formats: WAV chunks, the bitmap header and cpio entries. *)
From Verif Require Export Conform ConformFull FormatProofs.
From Coq Require Import String ZArith List Lia.
Import ListNotations.
Open Scope string_scope.
Open Scope list_scope.
Open Scope Z_scope.

(** A field without default, null value, validators or condition. *)
Definition cf (name : string) (const : value) (discard : bool) (sz : sizespec) (comp : option (query value))
    (i : Z) (off : option Z) : fconf :=
  mkConf (Some name) const const None discard VUndefined sz [] (fun _ _ => QRet true) VNotPresent comp (Some i) off.

Lemma form_nonneg k e z b : zlen b = k /\ int_form false e z b -> 0 <= z.
Proof. intros (_ & _ & H & _). unfold int_range in H. lia. Qed.

Ltac side := solve [reflexivity | exact I | lia | auto | repeat split; reflexivity
  | eapply form_nonneg; eassumption | left; reflexivity | left; exact I | right; reflexivity | right; eexists; split; reflexivity ].

(** Reads the next component in [H]. *)
Ltac next_field H :=
  match type of H with
  | loads _ (S ?n) _ ((?nm, Field ?c (KInt ?sg ?e)) :: _) ?d ?s _ _ =>
    let sz := eval cbn in (c_size c) in
    match sz with SInt ?k =>
      apply (loads_int _ n _ nm c sg e k) in H; [|side..];
      let z := fresh "z" in let b := fresh "b" in let s1 := fresh "s" in
      let Hf := fresh "Hf" in let Hc := fresh "Hc" in let Hn := fresh "Hn" in let Hb := fresh "Hb" in
      destruct H as (z & b & s1 & Hf & Hc & Hn & Hb & H);
      destruct Hc as [Hc|Hc]; [try discriminate Hc|try discriminate Hc; injection Hc as <-]
    end
  | loads _ (S ?n) _ ((?nm, Field ?c KBytes) :: _) ?d ?s _ _ =>
    let sz := eval cbn in (c_size c) in
    let k := match sz with SInt ?k => k | SRef ?x =>
               let v := eval lazy in (dget d x) in lazymatch v with Some (VInt ?k) => k end end in
      apply (loads_bytes _ n _ nm c k) in H; [|side..];
      let b := fresh "b" in let s1 := fresh "s" in
      let Hf := fresh "Hf" in let Hc := fresh "Hc" in let Hn := fresh "Hn" in let Hb := fresh "Hb" in
      destruct H as (b & s1 & Hf & Hc & Hn & Hb & H);
      destruct Hc as [Hc|Hc]; [try discriminate Hc|try discriminate Hc; injection Hc as <-]
  | loads _ _ _ [] _ _ _ _ => apply loads_end in H; destruct H as [-> ->]
  end; cbn [app] in *.

(** Takes the pieces of [H] apart, and puts pieces together. *)
Ltac split_pieces H :=
  let b := fresh "b" in let s1 := fresh "s" in let Hp := fresh "Hp" in let Hn := fresh "Hn" in let Hb := fresh "Hb" in
  first
  [ apply next_pieces_cons in H; destruct H as (b & s1 & Hp & Hn & H);
    match type of Hn with next_bytes ?s _ _ =>
      match goal with Hx : bytes_ok (rest s) |- _ => pose proof (proj2 (next_ok _ _ _ Hn Hx)) as Hb end end;
    cbn [piece_form] in Hp; split_pieces H
  | apply next_pieces_nil in H; subst ].

Ltac join_pieces :=
  first
  [ apply next_pieces_cons; do 2 eexists; split; [|split; [eassumption|join_pieces]]; cbn [piece_form];
    first [reflexivity | assumption]
  | apply next_pieces_nil; reflexivity ].

(** Shows that the components are read. *)
Ltac give :=
  match goal with
  | |- loads _ (S ?n) _ ((?nm, Field ?c (KInt ?sg ?e)) :: _) ?d ?s _ _ =>
    let sz := eval cbn in (c_size c) in
    match sz with SInt ?k =>
      apply (loads_int _ n _ nm c sg e k); [side..|];
      do 3 eexists; split; [|split; [|split; [eassumption|split; [assumption|]]]];
      [eassumption | first [left; reflexivity | right; reflexivity] | cbn [app]; give]
    end
  | |- loads _ (S ?n) _ ((?nm, Field ?c KBytes) :: _) ?d ?s _ _ =>
    let sz := eval cbn in (c_size c) in
    let k := match sz with SInt ?k => k | SRef ?x =>
               let v := eval lazy in (dget d x) in lazymatch v with Some (VInt ?k) => k end end in
      apply (loads_bytes _ n _ nm c k); [side..|];
      do 2 eexists; split; [|split; [|split; [eassumption|split; [assumption|]]]];
      [first [reflexivity | eassumption] | first [left; reflexivity | right; reflexivity] | cbn [app]; give]
  | |- loads _ _ _ [] _ _ _ _ => apply loads_end; split; reflexivity
  end.

Ltac valid Hcls := unfold validated; rewrite Hcls; split; [|exact (Forall_nil _)]; intros ? ? Hin; cbn in Hin;
  repeat (destruct Hin as [Hin|Hin];
          [injection Hin as <- <-; eexists; eexists; split; [reflexivity|]; split; [reflexivity|]; split; exact (Forall_nil _)|]);
  contradiction.

Ltac wf := split; [repeat constructor; cbn; intuition discriminate|]; split; [repeat constructor|];
  intros x; cbn; tauto.

(** ** The data chunk of a WAV file *)
Definition wav_data_class : classdef :=
  mkClass "WAVDataChunk"
    [("chunk_id", Field (cf "chunk_id" (bv "data") false (SInt 4) None 0 (Some 0)) KBytes);
     ("size", Field (cf "size" VUndefined false (SInt 4) (Some (length_of "audio_data")) 1 (Some 4)) (KInt false Little));
     ("audio_data", Field (cf "audio_data" VUndefined false (SRef "size") None 2 (Some 8)) KBytes)]
    [("chunk_id", []); ("size", []); ("audio_data", [])] [] 3 [].

Lemma wav_data_is : cls WAV 2 = wav_data_class.
Proof. reflexivity. Qed.

Lemma wav_data_read n ctx s s' vals : bytes_ok (rest s) ->
  struct_from_stream WAV (S n) 2 ctx [] s = (s', Ok vals)
  <-> exists audio, vals = wav_data_values audio
      /\ exists bs, pieces (wav_data_pieces audio) bs /\ next_bytes s bs s'.
Proof.
  intros Hb. rewrite struct_load_iff by (rewrite ?wav_data_is; first [wf | constructor]). rewrite wav_data_is. cbn [k_comps wav_data_class].
  split.
  - intros (d & Hl & _ & _ & ->). repeat next_field Hl. subst. eexists. split; [reflexivity|]. join_pieces.
  - intros (audio & -> & H). unfold wav_data_pieces in H. split_pieces H. subst.
    exists (wav_data_values audio). split; [give|]. split; [intros x []|]. split; [valid wav_data_is|reflexivity].
Qed.

Ltac cut_pieces H :=
  let b := fresh "b" in let r := fresh "r" in let Hp := fresh "Hp" in let Hr := fresh "Hr" in
  first
  [ apply pieces_iff in H; destruct H as (b & r & Hp & H & ->); cbn [piece_form] in Hp; cut_pieces H
  | inversion H; subst; clear H ].

(** Shows that a component is written. *)
Ltac put := eexists; split; [reflexivity|]; right; split; [discriminate|];
  first [ eapply int_writes; [reflexivity|reflexivity|eassumption]
        | apply bytes_writes; [reflexivity|]; first [left; reflexivity | right; eexists; split; reflexivity] ].

Lemma lift_dump E n m cid vals ctx bs : struct_to_stream E n cid vals ctx = (bs, Ok tt) -> (n <= m)%nat ->
  struct_to_stream E m cid vals ctx = (bs, Ok tt).
Proof.
  intros H Hle. pose proof (struct_to_stream_mono E n m cid vals ctx Hle) as Hm. rewrite H in Hm.
  destruct Hm as [Hm|Hm]; [discriminate|auto].
Qed.

Lemma dump_parts E n cid vals ctx bs all : validated E n cid vals -> to_dict E n cid vals false = Ok all ->
  (exists parts, Forall2 (field_part E n ctx all) (k_comps (cls E cid)) parts /\ bs = concat parts) ->
  struct_to_stream E n cid vals ctx = (bs, Ok tt).
Proof. intros Hv Ha (parts & Hp & Hc). apply struct_dump_iff. exists all, parts. auto. Qed.

Lemma parts_cons E n ctx all nf fs b r : field_part E n ctx all nf b ->
  (exists parts, Forall2 (field_part E n ctx all) fs parts /\ r = concat parts) ->
  exists parts, Forall2 (field_part E n ctx all) (nf :: fs) parts /\ b ++ r = concat parts.
Proof. intros Hb (parts & Hp & ->). exists (b :: parts). split; [constructor; auto|reflexivity]. Qed.

Lemma parts_nil E n ctx all : exists parts, Forall2 (field_part E n ctx all) [] parts /\ [] = concat parts.
Proof. exists []. split; [constructor|reflexivity]. Qed.

(** Dumps [vals] in the pieces of the hypotheses. *)
Ltac dump_all Hcls all := apply (dump_parts _ _ _ _ _ _ all); [valid Hcls|reflexivity|]; rewrite Hcls; cbn [k_comps]; repeat (apply parts_cons; [put|]); apply parts_nil.

(** An instance as the user makes it, and as it is loaded. *)
Lemma wav_data_written audio bs n ctx vals : pieces (wav_data_pieces audio) bs -> (5 <= n)%nat ->
  vals = [("audio_data", VBytes audio)] \/ vals = wav_data_values audio ->
  struct_to_stream WAV n 2 vals ctx = (bs, Ok tt).
Proof.
  intros Hp Hn Hv. apply (lift_dump _ 5); auto. unfold wav_data_pieces in Hp. cut_pieces Hp.
  destruct Hv as [-> | ->].
  - dump_all wav_data_is [("audio_data", VBytes audio); ("chunk_id", VBytes (text "data")); ("size", VInt (zlen audio))].
  - dump_all wav_data_is (wav_data_values audio).
Qed.

Lemma sizes_of ps : forallb (fun p => match p with Unsigned k _ | Signed k _ => 0 <=? k | Raw _ => true end) ps = true ->
  Forall sizes_ok ps.
Proof.
  rewrite forallb_forall, Forall_forall. intros H p Hp. specialize (H p Hp). destruct p; cbn in *; auto; lia.
Qed.

(** ** The format chunk *)
Definition wav_format_class : classdef :=
  mkClass "WAVFormatChunk"
    [("chunk_id", Field (cf "chunk_id" (bv "fmt ") false (SInt 4) None 0 (Some 0)) KBytes);
     ("size", Field (cf "size" (VInt 16) false (SInt 4) None 1 (Some 4)) (KInt false Little));
     ("audio_format", Field (cf "audio_format" VUndefined false (SInt 2) None 2 (Some 8)) (KInt false Little));
     ("n_channels", Field (cf "n_channels" VUndefined false (SInt 2) None 3 (Some 10)) (KInt false Little));
     ("sample_rate", Field (cf "sample_rate" VUndefined false (SInt 4) None 4 (Some 12)) (KInt false Little));
     ("byte_rate", Field (cf "byte_rate" VUndefined false (SInt 4)
        (Some (product ["sample_rate"; "n_channels"; "bits_per_sample"] 1)) 5 (Some 16)) (KInt false Little));
     ("block_alignment", Field (cf "block_alignment" VUndefined false (SInt 2)
        (Some (product ["n_channels"; "bits_per_sample"] 1)) 6 (Some 20)) (KInt false Little));
     ("bits_per_sample", Field (cf "bits_per_sample" VUndefined false (SInt 2) None 7 (Some 22)) (KInt false Little))]
    [("chunk_id", []); ("size", []); ("audio_format", []); ("n_channels", []); ("sample_rate", []);
     ("byte_rate", []); ("block_alignment", []); ("bits_per_sample", [])] [] 8 [("endian", Little)].

Lemma wav_format_is : cls WAV 1 = wav_format_class.
Proof. reflexivity. Qed.

Lemma wav_format_read n ctx s s' vals : bytes_ok (rest s) ->
  struct_from_stream WAV (S n) 1 ctx [] s = (s', Ok vals)
  <-> exists format channels rate byte_rate alignment bits,
      vals = wav_format_values format channels rate byte_rate alignment bits
      /\ exists bs, pieces (wav_format_pieces format channels rate byte_rate alignment bits) bs /\ next_bytes s bs s'.
Proof.
  intros Hb. rewrite struct_load_iff by (rewrite ?wav_format_is; first [wf | constructor]).
  rewrite wav_format_is. cbn [k_comps wav_format_class]. split.
  - intros (d & Hl & _ & _ & ->). repeat next_field Hl. subst. do 6 eexists. split; [reflexivity|]. join_pieces.
  - intros (f & c & r & br & al & bi & -> & H). unfold wav_format_pieces in H. split_pieces H. subst.
    exists (wav_format_values f c r br al bi). split; [give|]. split; [intros x []|].
    split; [valid wav_format_is|reflexivity].
Qed.

Lemma wav_format_written format channels rate bits bs n ctx :
  pieces (wav_format_pieces format channels rate (rate * channels * bits / 8) (channels * bits / 8) bits) bs ->
  (9 <= n)%nat ->
  struct_to_stream WAV n 1 [("audio_format", VInt format); ("n_channels", VInt channels); ("sample_rate", VInt rate);
                            ("bits_per_sample", VInt bits)] ctx = (bs, Ok tt).
Proof.
  intros Hp Hn. apply (lift_dump _ 9); auto.
  assert (Er : rate * channels * bits / 8 = 1 * rate * channels * bits / 8) by (f_equal; lia).
  assert (Ea : channels * bits / 8 = 1 * channels * bits / 8) by (f_equal; lia).
  unfold wav_format_pieces in Hp. rewrite Er, Ea in *. cut_pieces Hp.
  dump_all wav_format_is [("audio_format", VInt format); ("n_channels", VInt channels); ("sample_rate", VInt rate);
    ("bits_per_sample", VInt bits); ("chunk_id", VBytes (text "fmt ")); ("size", VInt 16);
    ("byte_rate", VInt (1 * rate * channels * bits / 8)); ("block_alignment", VInt (1 * channels * bits / 8))].
Qed.

Lemma wav_format_rewritten format channels rate br al bits bs n ctx :
  pieces (wav_format_pieces format channels rate br al bits) bs -> (9 <= n)%nat ->
  struct_to_stream WAV n 1 (wav_format_values format channels rate br al bits) ctx = (bs, Ok tt).
Proof.
  intros Hp Hn. apply (lift_dump _ 9); auto. unfold wav_format_pieces in Hp. cut_pieces Hp.
  dump_all wav_format_is (wav_format_values format channels rate br al bits).
Qed.

(** ** The file header *)
Definition wav_header_class : classdef :=
  mkClass "WAVFileHeader"
    [("riff_header", Field (cf "riff_header" (bv "RIFF") false (SInt 4) None 0 (Some 0)) KBytes);
     ("size", Field (cf "size" VUndefined false (SInt 4) None 1 (Some 4)) (KInt false Little));
     ("file_format", Field (cf "file_format" (bv "WAVE") false (SInt 4) None 2 (Some 8)) KBytes)]
    [("riff_header", []); ("size", []); ("file_format", [])] [] 3 [].

Lemma wav_header_is : cls WAV 0 = wav_header_class.
Proof. reflexivity. Qed.

Lemma wav_header_read n ctx s s' vals : bytes_ok (rest s) ->
  struct_from_stream WAV (S n) 0 ctx [] s = (s', Ok vals)
  <-> exists size, vals = wav_header_values size
      /\ exists bs, pieces (wav_header_pieces size) bs /\ next_bytes s bs s'.
Proof.
  intros Hb. rewrite struct_load_iff by (rewrite ?wav_header_is; first [wf | constructor]).
  rewrite wav_header_is. cbn [k_comps wav_header_class]. split.
  - intros (d & Hl & _ & _ & ->). repeat next_field Hl. subst. eexists. split; [reflexivity|]. join_pieces.
  - intros (size & -> & H). unfold wav_header_pieces in H. split_pieces H. subst.
    exists (wav_header_values size). split; [give|]. split; [intros x []|]. split; [valid wav_header_is|reflexivity].
Qed.

Lemma wav_header_written size bs n ctx vals : pieces (wav_header_pieces size) bs -> (5 <= n)%nat ->
  vals = [("size", VInt size)] \/ vals = wav_header_values size ->
  struct_to_stream WAV n 0 vals ctx = (bs, Ok tt).
Proof.
  intros Hp Hn Hv. apply (lift_dump _ 5); auto. unfold wav_header_pieces in Hp. cut_pieces Hp.
  destruct Hv as [-> | ->].
  - dump_all wav_header_is [("size", VInt size); ("riff_header", VBytes (text "RIFF")); ("file_format", VBytes (text "WAVE"))].
  - dump_all wav_header_is (wav_header_values size).
Qed.
