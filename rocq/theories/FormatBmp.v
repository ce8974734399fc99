(** The bitmap header of the examples. *)
From Verif Require Export FormatMore.
From Coq Require Import String ZArith List Lia.
Import ListNotations.
Open Scope string_scope.
Open Scope list_scope.
Open Scope Z_scope.

Definition bmp_class : classdef :=
  mkClass "SimpleBMPFileHeader"
    [("magic", Field (cf "magic" (bv "BM") true (SInt 2) None 0 (Some 0)) KBytes);
     ("file_size", Field (cf "file_size" VUndefined false (SInt 4) None 1 (Some 2)) (KInt false Little));
     ("_reserved", Field (cf "_reserved" (hv "00 00 00 00") true (SInt 4) None 2 (Some 6)) KBytes);
     ("pixels_offset", Field (cf "pixels_offset" VUndefined false (SInt 4) None 3 (Some 10)) (KInt false Little));
     ("header_size", Field (cf "header_size" (VInt 40) true (SInt 4) None 4 (Some 14)) (KInt false Little));
     ("image_width", Field (cf "image_width" VUndefined false (SInt 4) None 5 (Some 18)) (KInt true Little));
     ("image_height", Field (cf "image_height" VUndefined false (SInt 4) None 6 (Some 22)) (KInt true Little));
     ("n_color_planes", Field (cf "n_color_planes" (VInt 1) false (SInt 2) None 7 (Some 26)) (KInt false Little));
     ("n_bits_per_pixel", Field (cf "n_bits_per_pixel" VUndefined false (SInt 2) None 8 (Some 28)) (KInt false Little));
     ("compression_method", Field (cf "compression_method" VUndefined false (SInt 4) None 9 (Some 30)) (KInt false Little));
     ("bitmap_size", Field (cf "bitmap_size" VUndefined false (SInt 4) None 10 (Some 34)) (KInt false Little));
     ("v_resolution", Field (cf "v_resolution" VUndefined false (SInt 4) None 11 (Some 38)) (KInt true Little));
     ("h_resolution", Field (cf "h_resolution" VUndefined false (SInt 4) None 12 (Some 42)) (KInt true Little));
     ("n_palette_colors", Field (cf "n_palette_colors" VUndefined false (SInt 4) None 13 (Some 46)) (KInt false Little));
     ("n_important_colors", Field (cf "n_important_colors" VUndefined false (SInt 4) None 14 (Some 50)) (KInt false Little))]
    [("magic", []); ("file_size", []); ("_reserved", []); ("pixels_offset", []); ("header_size", []);
     ("image_width", []); ("image_height", []); ("n_color_planes", []); ("n_bits_per_pixel", []);
     ("compression_method", []); ("bitmap_size", []); ("v_resolution", []); ("h_resolution", []);
     ("n_palette_colors", []); ("n_important_colors", [])] [] 15 [].

Lemma bmp_is : cls BMP 0 = bmp_class.
Proof. reflexivity. Qed.

Definition bmp_all (h : bmp) : dict :=
  [("magic", VBytes (text "BM")); ("file_size", VInt (b_file_size h)); ("_reserved", VBytes [0; 0; 0; 0]);
   ("pixels_offset", VInt (b_pixels h)); ("header_size", VInt 40);
   ("image_width", VInt (b_width h)); ("image_height", VInt (b_height h)); ("n_color_planes", VInt 1);
   ("n_bits_per_pixel", VInt (b_bits h)); ("compression_method", VInt (b_compression h));
   ("bitmap_size", VInt (b_bitmap_size h)); ("v_resolution", VInt (b_v_resolution h));
   ("h_resolution", VInt (b_h_resolution h)); ("n_palette_colors", VInt (b_palette h));
   ("n_important_colors", VInt (b_important h))].

Lemma bmp_read n ctx s s' vals : bytes_ok (rest s) ->
  struct_from_stream BMP (S n) 0 ctx [] s = (s', Ok vals)
  <-> exists h, vals = bmp_attributes h /\ exists bs, pieces (bmp_pieces h) bs /\ next_bytes s bs s'.
Proof.
  intros Hb. rewrite struct_load_iff by (rewrite ?bmp_is; first [wf | constructor]).
  rewrite bmp_is. cbn [k_comps bmp_class]. split.
  - intros (d & Hl & _ & _ & ->). repeat next_field Hl. subst.
    eexists (Build_bmp _ _ _ _ _ _ _ _ _ _ _). split; [reflexivity|]. unfold bmp_pieces. cbn [b_file_size b_pixels b_width b_height b_bits
      b_compression b_bitmap_size b_v_resolution b_h_resolution b_palette b_important]. join_pieces.
  - intros (h & -> & H). unfold bmp_pieces in H. split_pieces H. subst.
    exists (bmp_all h). split; [unfold bmp_all; give|]. split; [intros x []|]. split; [valid bmp_is|reflexivity].
Qed.

Lemma bmp_written h bs n ctx vals : pieces (bmp_pieces h) bs -> (5 <= n)%nat ->
  vals = bmp_given h \/ vals = bmp_attributes h ->
  struct_to_stream BMP n 0 vals ctx = (bs, Ok tt).
Proof.
  intros Hp Hn Hv. apply (lift_dump _ 5); auto. unfold bmp_pieces in Hp. cut_pieces Hp.
  destruct Hv as [-> | ->].
  - dump_all bmp_is (bmp_given h ++ [("n_color_planes", VInt 1)]).
  - dump_all bmp_is (bmp_attributes h).
Qed.

Lemma pieces_len ps bs : pieces ps bs ->
  zlen bs = fold_right (fun p n => match p with Unsigned k _ | Signed k _ => k | Raw b => zlen b end + n) 0 ps.
Proof.
  induction 1 as [|p ps b bs Hp _ IH]; [reflexivity|]. cbn [fold_right]. rewrite <- IH.
  unfold zlen in *. rewrite app_length, Nat2Z.inj_add. f_equal. destruct p; cbn in Hp; [apply Hp|apply Hp|subst; auto].
Qed.

Lemma bmp_rewritten n ctx ctx' s s' vals : bytes_ok (rest s) -> (5 <= n)%nat ->
  struct_from_stream BMP n 0 ctx [] s = (s', Ok vals) ->
  exists bs, next_bytes s bs s' /\ zlen bs = 54 /\ struct_to_stream BMP n 0 vals ctx' = (bs, Ok tt).
Proof.
  intros Hb Hn H. destruct n as [|n]; [lia|]. apply bmp_read in H; auto. destruct H as (h & -> & bs & Hp & Hx).
  exists bs. split; auto. split; [apply (pieces_len _ _ Hp)|]. apply (bmp_written h); auto.
Qed.
